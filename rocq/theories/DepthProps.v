(** Properties C46-C51 and C64 of gridded/depth.py. *)
From Coq Require Import String Lqa.
From Verif Require Import Common CommonProofs TimeModel VariableModel VariableProofs DepthModel DepthSpec
  DepthProofs DepthSigmaProofs DepthAtProofs.
Open Scope Z_scope.

(** C46.  Half-open ranges: the last entry of the list is not covered (see the
    refutation); everything else is. *)
Theorem c46_ascending_partial :
  forall levels data_len sbc bbc depths a b,
  Ascending levels -> (2 <= length levels)%nat -> data_len <> Some 1%nat ->
  First levels a -> Last levels b ->
  exists rows, l_alphas levels data_len sbc bbc depths = Ok rows /\ length rows = length depths /\
    forall k d, nth_error depths k = Some d -> (a <= d < b)%Q ->
      exists i al, nth_error rows k = Some (Some (Z.of_nat i), Some al) /\ Bracketed levels d i al /\ (al < 1)%Q.
Proof.
  intros levels dl sbc bbc ds a b HA Hn Hd Ha Hb.
  destruct (l_alphas_asc levels dl sbc bbc ds HA Hn Hd) as (rows & E & L & K).
  exists rows. split; [exact E|]. split; [exact L|]. intros k d Hk Hr.
  destruct (K k d Hk) as (r & Hr' & HR). destruct (proj2 (proj2 (HR a b Ha Hb)) Hr) as (i & al & -> & B).
  exists i, al. exact (conj Hr' B).
Qed.
Print Assumptions c46_ascending_partial.
Theorem c46_descending_partial :
  forall levels data_len sbc bbc depths a b,
  Descending levels -> (2 <= length levels)%nat -> data_len <> Some 1%nat ->
  First levels a -> Last levels b ->
  exists rows, l_alphas levels data_len sbc bbc depths = Ok rows /\ length rows = length depths /\
    forall k d, nth_error depths k = Some d -> (b < d <= a)%Q ->
      exists i al, nth_error rows k = Some (Some (Z.of_nat i), Some al) /\ Bracketed levels d i al /\ (al < 1)%Q.
Proof.
  intros levels dl sbc bbc ds a b HA Hn Hd Ha Hb.
  destruct (l_alphas_desc levels dl sbc bbc ds HA Hn Hd) as (rows & E & L & K).
  exists rows. split; [exact E|]. split; [exact L|]. intros k d Hk Hr.
  destruct (K k d Hk) as (r & Hr' & HR). destruct (proj2 (proj2 (HR a b Ha Hb)) Hr) as (i & al & -> & B).
  exists i, al. exact (conj Hr' B).
Qed.
Print Assumptions c46_descending_partial.
(** A point exactly on the last level gets the last index, which has no next
    level (top-down list), and with the default conditions it is masked. *)
Theorem c46_last_level_refuted :
  exists levels d, Ascending levels /\ Last levels d /\
    l_alphas levels (Some 3%nat) BExtrapolate BExtrapolate [d] = Ok [(Some 2, Some 0%Q)] /\
    nth_error levels 3 = None /\
    l_alphas levels (Some 3%nat) default_sbc default_bbc [d] = Ok [(None, None)].
Proof.
  exists [0; 10; 20]%Q, 20%Q. repeat split.
  intros [|[|[|i]]] [|[|[|j]]] x y Hij Hx Hy; cbn in *; try lia; try discriminate; try (destruct i; discriminate);
    try (destruct j; discriminate); injection Hx as <-; injection Hy as <-; reflexivity.
Qed.
Print Assumptions c46_last_level_refuted.
(** Inside a Variable: a field linear in depth is returned exactly at every depth
    covered, the first level's value (or a mask) above it. *)
Theorem c46_linear_field :
  forall P g (leaf : list nat -> P -> cell) (dep : P -> Q) levels sbc bbc pts rest time q ex (c0 c1 : P -> Q) a b,
  Ascending levels -> (2 <= length levels)%nat -> First levels a -> Last levels b ->
  (forall j p L, nth_error levels j = Some L -> leaf [j] p = CVal (c0 p + c1 p * L)) ->
  (forall p, In p pts -> (dep p < b)%Q) ->
  exists vs, at_nomem (DDepth :: horizontal g) (length levels :: rest) leaf time
               (Some (l_view dep levels (Some (length levels)) sbc bbc)) q ex pts = Ok vs /\
    length vs = length pts /\
    forall k p, nth_error pts k = Some p ->
      (a <= dep p -> exists v, nth_error vs k = Some (CVal v) /\ v == c0 p + c1 p * dep p)%Q /\
      (dep p < a -> (bmask sbc = true /\ nth_error vs k = Some CMasked) \/
                    (bmask sbc = false /\ exists v, nth_error vs k = Some (CVal v) /\ v == c0 p + c1 p * a))%Q.
Proof. exact @l_var_linear. Qed.
Print Assumptions c46_linear_field.
Lemma asc3 x y z : (x < y)%Q -> (y < z)%Q -> Ascending [x; y; z].
Proof.
  intros H1 H2 [|[|[|i]]] [|[|[|j]]] u v Hij Hu Hv; cbn in *; try lia; try discriminate;
  try (destruct i; discriminate); try (destruct j; discriminate); injection Hu as <-; injection Hv as <-; lra.
Qed.
Lemma desc3 x y z : (y < x)%Q -> (z < y)%Q -> Descending [x; y; z].
Proof.
  intros H1 H2 [|[|[|i]]] [|[|[|j]]] u v Hij Hu Hv; cbn in *; try lia; try discriminate;
  try (destruct i; discriminate); try (destruct j; discriminate); injection Hu as <-; injection Hv as <-; lra.
Qed.
Example c46_example :
  Ascending [0; 10; 30]%Q /\ Descending [30; 10; 0]%Q /\
  l_alphas [0; 10; 30]%Q (Some 3%nat) BExtrapolate BMask [5; 10; 25]%Q
    = Ok [(Some 0, Some (5 # 10)%Q); (Some 1, Some (0 # 20)%Q); (Some 1, Some (15 # 20)%Q)] /\
  exists v, l_alphas [30; 10; 0]%Q (Some 3%nat) BExtrapolate BMask [5; 30]%Q = Ok [(Some 1, Some v); (Some 0, Some (0 # 20)%Q)]
    /\ (v == 1 # 2)%Q.
Proof.
  split; [apply asc3; reflexivity|]. split; [apply desc3; reflexivity|]. split; [vm_compute; reflexivity|].
  eexists. split; [vm_compute; reflexivity|reflexivity].
Qed.

(** C47, level depths: each side follows its own condition. *)
Theorem c47_levels_ascending_partial :
  forall levels data_len sbc bbc depths a b,
  Ascending levels -> (2 <= length levels)%nat -> data_len <> Some 1%nat ->
  First levels a -> Last levels b ->
  exists rows, l_alphas levels data_len sbc bbc depths = Ok rows /\ length rows = length depths /\
    forall k d, nth_error depths k = Some d ->
      (d < a -> nth_error rows k = Some (if bmask sbc then (None, None) else (Some (-1)%Z, Some 1)))%Q /\
      (b <= d -> nth_error rows k = Some (if bmask bbc then (None, None)
                                          else (Some (Z.of_nat (length levels) - 1)%Z, Some 0)))%Q /\
      (a <= d < b -> exists i al, nth_error rows k = Some (Some i, Some al))%Q.
Proof.
  intros levels dl sbc bbc ds a b HA Hn Hd Ha Hb.
  destruct (l_alphas_asc levels dl sbc bbc ds HA Hn Hd) as (rows & E & L & K).
  exists rows. split; [exact E|]. split; [exact L|]. intros k d Hk.
  destruct (K k d Hk) as (r & Hr & HR). destruct (HR a b Ha Hb) as (R1 & R2 & R3). rewrite Hr.
  split; [intros H; f_equal; exact (R1 H)|]. split; [intros H; f_equal; exact (R2 H)|].
  intros H. destruct (R3 H) as (i & al & -> & _). eauto.
Qed.
Print Assumptions c47_levels_ascending_partial.
Theorem c47_levels_descending_partial :
  forall levels data_len sbc bbc depths a b,
  Descending levels -> (2 <= length levels)%nat -> data_len <> Some 1%nat ->
  First levels a -> Last levels b ->
  exists rows, l_alphas levels data_len sbc bbc depths = Ok rows /\ length rows = length depths /\
    forall k d, nth_error depths k = Some d ->
      (a < d -> nth_error rows k = Some (if bmask bbc then (None, None) else (Some (-1)%Z, Some 1)))%Q /\
      (d <= b -> nth_error rows k = Some (if bmask sbc then (None, None)
                                          else (Some (Z.of_nat (length levels) - 1)%Z, Some 0)))%Q /\
      (b < d <= a -> exists i al, nth_error rows k = Some (Some i, Some al))%Q.
Proof.
  intros levels dl sbc bbc ds a b HA Hn Hd Ha Hb.
  destruct (l_alphas_desc levels dl sbc bbc ds HA Hn Hd) as (rows & E & L & K).
  exists rows. split; [exact E|]. split; [exact L|]. intros k d Hk.
  destruct (K k d Hk) as (r & Hr & HR). destruct (HR a b Ha Hb) as (R1 & R2 & R3). rewrite Hr.
  split; [intros H; f_equal; exact (R1 H)|]. split; [intros H; f_equal; exact (R2 H)|].
  intros H. destruct (R3 H) as (i & al & -> & _). eauto.
Qed.
Print Assumptions c47_levels_descending_partial.
(** A point within the levels can be masked: one exactly on the last level. *)
Theorem c47_within_masked_refuted :
  exists levels d sbc bbc, Descending levels /\ (exists a b, First levels a /\ Last levels b /\ b <= d <= a)%Q /\
    l_alphas levels (Some 3%nat) sbc bbc [d] = Ok [(None, None)].
Proof.
  exists [30; 10; 0]%Q, 0%Q, BMask, BExtrapolate. split; [apply desc3; reflexivity|]. split; [|vm_compute; reflexivity].
  exists 30%Q, 0%Q. repeat split; try reflexivity; apply Qle_bool_iff; reflexivity.
Qed.
Print Assumptions c47_within_masked_refuted.
(** The extrapolated end of a bottom-up axis cannot be used: a Variable asked only
    for points at or above the shallowest level raises, whatever the data. *)
Theorem c47_descending_surface_raises :
  forall P g (leaf : list nat -> P -> cell) (dep : P -> Q) levels bbc pts rest time q ex b,
  Descending levels -> (2 <= length levels)%nat -> Last levels b -> pts <> [] ->
  (forall p, In p pts -> (dep p <= b)%Q) ->
  at_nomem (DDepth :: horizontal g) (length levels :: rest) leaf time
    (Some (l_view dep levels (Some (length levels)) BExtrapolate bbc)) q ex pts = Err UnboundLocalError.
Proof. exact @l_var_desc_surface. Qed.
Print Assumptions c47_descending_surface_raises.
(** Sigma depths: the function that applies the conditions.  [excluded] entries
    (off the grid) stay masked. *)
Theorem c47_sigma_conditions :
  forall surf bot sbc bbc i,
  (surf = 0 -> 0 < bot -> s_boundary surf bot sbc bbc false i =
     if i <? 0 then (Some 1%Q, negb (bextrap sbc))
     else if bot <=? i then (Some 0%Q, negb (bextrap bbc)) else (None, false)) /\
  (bot = 0 -> 0 < surf -> s_boundary surf bot sbc bbc false i =
     if i <? 0 then (Some 1%Q, negb (bextrap bbc))
     else if surf <=? i then (Some 0%Q, negb (bextrap sbc)) else (None, false)) /\
  snd (s_boundary surf bot sbc bbc true i) = true.
Proof.
  intros. exact (conj (proj1 (s_boundary_spec surf bot sbc bbc i))
    (conj (proj2 (s_boundary_spec surf bot sbc bbc i)) (s_boundary_excluded surf bot sbc bbc i))).
Qed.
Print Assumptions c47_sigma_conditions.
Example c47_example :
  l_alphas [0; 10; 30]%Q (Some 3%nat) BMask BExtrapolate [-1; 0; 31]%Q
    = Ok [(None, None); (Some 0, Some (0 # 10)%Q); (Some 2, Some 0%Q)] /\
  l_alphas [0; 10; 30]%Q (Some 3%nat) BExtrapolate BMask [-1; 0; 31]%Q
    = Ok [(Some (-1), Some 1%Q); (Some 0, Some (0 # 10)%Q); (None, None)].
Proof. split; vm_compute; reflexivity. Qed.

(** C48.  [SRow] says of each row, by cases on that point's own profile: masked
    when the profile is masked; inside, [Bracketed]; outside, the conditions. *)
Theorem c48_levels_partial :
  forall P (depth : P -> Q) (profile : nat -> P -> result (option (list Q))) (asc : bool) surf bot n nlay sbc bbc pts,
  (2 <= n)%nat ->
  (if asc then surf = 0 /\ bot = n - 1 else surf = n - 1 /\ bot = 0)%nat ->
  (forall p, In p pts -> profile n p = Ok None \/
     exists prof, profile n p = Ok (Some prof) /\ length prof = n /\
                  if asc then Ascending prof else Descending prof) ->
  exists rows, s_alphas depth profile surf bot n nlay (Some n) sbc bbc pts = Ok rows /\
    length rows = length pts /\
    forall k p, nth_error pts k = Some p -> exists r, nth_error rows k = Some r /\
      match profile n p with
      | Err _ => False
      | Ok None => r = (None, None)
      | Ok (Some prof) => forall a b, First prof a -> Last prof b ->
          if asc then
            (depth p < a -> r = if bextrap sbc then (Some (-1)%Z, Some 1) else (None, None))%Q /\
            (b <= depth p -> r = if bextrap bbc then (Some (Z.of_nat (length prof) - 1)%Z, Some 0) else (None, None))%Q /\
            (a <= depth p < b -> exists i al, r = (Some (Z.of_nat i), Some al) /\ Bracketed prof (depth p) i al)%Q
          else
            (a <= depth p -> r = if bextrap bbc then (Some (-1)%Z, Some 1) else (None, None))%Q /\
            (depth p < b -> r = if bextrap sbc then (Some (Z.of_nat (length prof) - 1)%Z, Some 0) else (None, None))%Q /\
            (b <= depth p < a -> exists i al, r = (Some (Z.of_nat i), Some al) /\ Bracketed prof (depth p) i al)%Q
      end.
Proof.
  intros P depth profile asc surf bot n nlay sbc bbc pts Hn Hsb HP.
  destruct (s_alphas_levels depth profile asc surf bot n nlay sbc bbc pts Hn Hsb HP) as (rows & E & L & K).
  exists rows. split; [exact E|]. split; [exact L|]. intros k p Hp. destruct (K k p Hp) as (r & Hr & S).
  exists r. split; [exact Hr|]. unfold SRow in S. destruct (profile n p) as [[prof|]|]; auto.
  intros a b Ha Hb. destruct asc; exact (S a b Ha Hb).
Qed.
Print Assumptions c48_levels_partial.
(** ROMS, from the coefficients: the whole water column 0 <= depth < h + zeta. *)
Theorem c48_roms_column :
  forall r sbc bbc pts, RomsOk r ->
  (forall p h z, In p pts -> sp_hz p = Some (h, z) -> Column r h z) ->
  exists rows, roms_alphas r (Some (length (r_sw r))) sbc bbc pts = Ok rows /\ length rows = length pts /\
    forall k p, nth_error pts k = Some p -> exists row, nth_error rows k = Some row /\
      match sp_hz p with
      | None => row = (None, None)
      | Some (h, z) =>
          exists prof, roms_profile r (length (r_sw r)) h z = Ok prof /\
          (sp_depth p < 0 -> row = if bextrap sbc then (Some (Z.of_nat (length (r_sw r)) - 1)%Z, Some 0) else (None, None))%Q /\
          (h + z <= sp_depth p -> row = if bextrap bbc then (Some (-1)%Z, Some 1) else (None, None))%Q /\
          (0 <= sp_depth p < h + z -> exists i al, row = (Some (Z.of_nat i), Some al) /\ Bracketed prof (sp_depth p) i al)%Q
      end.
Proof. exact roms_alphas_levels. Qed.
Print Assumptions c48_roms_column.
Theorem c48_wrong_length :
  forall P (depth : P -> Q) profile surf bot nlev nlay n sbc bbc pts,
  n <> 1%nat -> nlev <> 1%nat -> n <> nlev -> n <> nlay ->
  s_alphas depth profile surf bot nlev nlay (Some n) sbc bbc pts = Err ValueError.
Proof. exact @s_alphas_wrong_length. Qed.
Print Assumptions c48_wrong_length.
(** Every row ever returned is masked, or has its index from -1 up to the last
    profile entry and its alpha in [0,1]; whatever the profile. *)
Theorem c48_rows_safe :
  forall surf bot sbc bbc d o r, s_point surf bot sbc bbc (d, o) = Ok r ->
  r = (None, None) \/ exists i a prof, r = (Some i, Some a) /\ o = Some prof /\
     -1 <= i < Z.of_nat (length prof) /\ (0 <= a <= 1)%Q.
Proof. exact s_point_safe. Qed.
Print Assumptions c48_rows_safe.
(** Data on layers: the surface index still refers to the levels, so a point between
    the last layer centre and the end of the column raises, and the whole query
    with it -- although the point is inside the water column. *)
Theorem c48_layers_raise :
  forall r sbc bbc pts p h z prof b, RomsOk r ->
  (forall q h z, In q pts -> sp_hz q = Some (h, z) -> Column r h z) ->
  In p pts -> sp_hz p = Some (h, z) -> roms_profile r (length (r_srho r)) h z = Ok prof ->
  Last prof b -> (sp_depth p < b)%Q ->
  roms_alphas r (Some (length (r_srho r))) sbc bbc pts = Err ValueError.
Proof. exact roms_alphas_layers_raise. Qed.
Print Assumptions c48_layers_raise.
Theorem c48_layers_raise_either_way :
  forall P (depth : P -> Q) profile (asc : bool) surf bot n nlay sbc bbc pts p prof b,
  (3 <= n)%nat -> nlay = (n - 1)%nat ->
  (if asc then surf = 0 /\ bot = n - 1 else surf = n - 1 /\ bot = 0)%nat ->
  (forall q, In q pts -> profile nlay q = Ok None \/
     exists pr, profile nlay q = Ok (Some pr) /\ length pr = nlay) ->
  In p pts -> profile nlay p = Ok (Some prof) -> length prof = nlay ->
  (if asc then Ascending prof else Descending prof) -> Last prof b ->
  (if asc then (b < depth p)%Q else (depth p < b)%Q) ->
  s_alphas depth profile surf bot n nlay (Some nlay) sbc bbc pts = Err ValueError.
Proof. exact @s_alphas_layers_raise. Qed.
Print Assumptions c48_layers_raise_either_way.
Definition demo_roms := mkROMS [-1; -1 # 2; 0]%Q [-3 # 4; -1 # 4]%Q [-1; -1 # 4; 0]%Q [-1 # 2; -1 # 8]%Q 5 2.
Lemma demo_roms_ok : RomsOk demo_roms.
Proof.
  constructor; cbn; try reflexivity; try lia; try (apply asc3; reflexivity); auto.
  - intros [|[|i]] [|[|j]] x y Hij Hx Hy; cbn in *; try lia; try (destruct j; discriminate);
      injection Hx as <-; injection Hy as <-; reflexivity.
  - intros [|[|i]] [|[|j]] x y Hij Hx Hy; cbn in *; try lia; try (destruct j; discriminate);
      injection Hx as <-; injection Hy as <-; reflexivity.
  - apply Qle_bool_iff. reflexivity.
Qed.
Theorem c48_layers_refuted :
  exists r sbc bbc p h z, RomsOk r /\ sp_hz p = Some (h, z) /\ Column r h z /\ (0 <= sp_depth p < h + z)%Q /\
    roms_alphas r (Some (length (r_srho r))) sbc bbc [p] = Err ValueError.
Proof.
  exists demo_roms, BExtrapolate, BMask, (mkSP 0 (Some (20, 1))%Q), 20%Q, 1%Q.
  split; [exact demo_roms_ok|]. split; [reflexivity|].
  split; [repeat split; cbn; try reflexivity; discriminate|]. split; [cbn; lra|]. vm_compute. reflexivity.
Qed.
Print Assumptions c48_layers_refuted.
Example c48_example :
  RomsOk demo_roms /\ Column demo_roms 20 1 /\
  exists a, roms_alphas demo_roms (Some 3%nat) BExtrapolate BMask
    [mkSP 3 (Some (20, 1))%Q; mkSP 3 None; mkSP (-1) (Some (20, 1))%Q; mkSP 21 (Some (20, 1))%Q]
  = Ok [(Some 1, Some a); (None, None); (Some 2, Some 0%Q); (None, None)] /\ (a == 11 # 21)%Q.
Proof.
  split; [exact demo_roms_ok|]. split; [repeat split; cbn; try reflexivity; discriminate|].
  eexists. split; [vm_compute; reflexivity|reflexivity].
Qed.

(** C49 *)
Theorem c49_roms_ends :
  forall r h zeta l, (length (r_sw r) <> length (r_srho r))%nat -> ~ (h == 0)%Q -> ~ (r_hc r + h == 0)%Q ->
  First (r_sw r) (-1) -> First (r_Cw r) (-1) -> Last (r_sw r) 0 -> Last (r_Cw r) 0 ->
  roms_profile r (length (r_sw r)) h zeta = Ok l ->
  length l = length (r_sw r) /\
  (exists b, First l b /\ b == h + zeta)%Q /\ (exists t, Last l t /\ t == 0)%Q.
Proof. exact roms_profile_ends. Qed.
Print Assumptions c49_roms_ends.
(** The first transform needs hc <= h for monotonicity (missing otherwise). *)
Theorem c49_roms_monotone_partial :
  forall r n h zeta l,
  (0 <= r_hc r)%Q -> (0 < h)%Q -> (0 < zeta + h)%Q -> (r_vt r = 1%Z -> r_hc r <= h)%Q ->
  Ascending (r_sw r) -> Ascending (r_Cw r) -> Ascending (r_srho r) -> Ascending (r_Cr r) ->
  roms_profile r n h zeta = Ok l -> Descending l.
Proof. exact roms_profile_desc. Qed.
Print Assumptions c49_roms_monotone_partial.
Theorem c49_roms_transform1_refuted :
  exists r h zeta l, (0 < h)%Q /\ (0 < zeta + h)%Q /\ Ascending (r_sw r) /\ Ascending (r_Cw r) /\
    roms_profile r 3 h zeta = Ok l /\ ~ Monotone l.
Proof.
  exists (mkROMS [-1; -1 # 2; 0]%Q [-3 # 4; -1 # 4]%Q [-1; -1 # 10; 0]%Q [-1 # 2; -1 # 8]%Q 10 1), 1%Q, 0%Q.
  eexists. split; [reflexivity|]. split; [reflexivity|]. split; [apply asc3; reflexivity|].
  split; [apply asc3; reflexivity|]. split; [vm_compute; reflexivity|].
  intros [H|H].
  - specialize (H 1%nat 2%nat _ _ ltac:(lia) eq_refl eq_refl). discriminate H.
  - specialize (H 0%nat 1%nat _ _ ltac:(lia) eq_refl eq_refl). discriminate H.
Qed.
Print Assumptions c49_roms_transform1_refuted.
Theorem c49_fvcom_ends :
  forall sig h zeta k s, nth_error sig k = Some s ->
  exists v, nth_error (fvcom_profile sig h zeta) k = Some v /\
    (s == 0 -> v == 0)%Q /\ (s == -1 -> v == h + zeta)%Q.
Proof. exact fvcom_profile_at. Qed.
Print Assumptions c49_fvcom_ends.
Theorem c49_fvcom_monotone :
  forall sig h zeta, (0 < zeta + h)%Q ->
  (Descending sig -> Ascending (fvcom_profile sig h zeta)) /\
  (Ascending sig -> Descending (fvcom_profile sig h zeta)).
Proof. exact fvcom_profile_mono. Qed.
Print Assumptions c49_fvcom_monotone.
Example c49_example :
  exists a b c, roms_profile demo_roms 3 20 1 = Ok [a; b; c] /\ (a == 21)%Q /\ (b == 63 # 10)%Q /\ (c == 0)%Q /\
  exists d e f, fvcom_profile [0; -1 # 4; -1]%Q 20 1 = [d; e; f] /\ (d == 0)%Q /\ (e == 21 # 4)%Q /\ (f == 21)%Q.
Proof.
  do 3 eexists. split; [vm_compute; reflexivity|]. do 3 (split; [reflexivity|]).
  do 3 eexists. split; [vm_compute; reflexivity|]. repeat split.
Qed.

(** C50 *)
Theorem c50_surface_only :
  forall P s (pts : list P) k p, nth_error pts k = Some p ->
  nth_error (base_alphas (b_surface (surface_only s)) pts) k = Some (Some s, Some 0%Q) /\
  length (base_alphas (b_surface (surface_only s)) pts) = length pts.
Proof.
  intros P s pts k p H. unfold base_alphas, surface_only. cbn.
  rewrite nth_error_map, H, map_length. exact (conj eq_refl eq_refl).
Qed.
Print Assumptions c50_surface_only.
(** Built from a file, the requested surface index is lost (it becomes the name)
    and -1 is used. *)
Theorem c50_from_file_ignores_index :
  forall s bot, exists d, base_from_netCDF s None bot = Ok d /\ b_surface d = -1.
Proof. intros s bot. eexists. split; reflexivity. Qed.
Print Assumptions c50_from_file_ignores_index.
Theorem c50_from_file_refuted :
  exists s d, base_from_netCDF s None None = Ok d /\ b_surface d <> s.
Proof. exists 0. eexists. split; [reflexivity|discriminate]. Qed.
Print Assumptions c50_from_file_refuted.
Example c50_example : base_alphas (b_surface (surface_only 3)) [tt; tt] = [(Some 3, Some 0%Q); (Some 3, Some 0%Q)].
Proof. reflexivity. Qed.

(** C51 *)
Theorem c51_choice :
  forall T (typs : list T) (can : T -> bool),
  match depth_factory typs can with
  | Ok None => forall t, In t typs -> can t = false
  | Ok (Some t) => exists i, nth_error typs i = Some t /\ can t = true /\
                   forall j u, nth_error typs j = Some u -> j <> i -> can u = false
  | Err e => e = ValueError /\ exists i j t u, i <> j /\ nth_error typs i = Some t /\ nth_error typs j = Some u /\
                   can t = true /\ can u = true
  end.
Proof. exact @depth_factory_spec. Qed.
Print Assumptions c51_choice.
(** A sigma kind is supported when every role but zeta was found. *)
Theorem c51_sigma_support :
  forall found, can_create_sigma found = true <->
  forall k b, In (k, b) found -> k <> "zeta"%string -> b = true.
Proof.
  intros found. unfold can_create_sigma. rewrite forallb_forall. split.
  - intros H k b Hin Hk. specialize (H _ Hin). cbn [fst snd] in H. apply orb_prop in H as [H|H]; auto.
    apply String.eqb_eq in H. congruence.
  - intros H [k b] Hin. cbn [fst snd]. destruct (String.eqb_spec k "zeta") as [E|E]; [apply orb_true_r|].
    rewrite (H k b Hin E). reflexivity.
Qed.
Print Assumptions c51_sigma_support.
Example c51_example :
  depth_factory sd_ld_types (fun t => match t with FVCOM_Depth => true | _ => false end) = Ok (Some FVCOM_Depth) /\
  depth_factory sd_ld_types (fun t => match t with FVCOM_Depth | L_Depth => true | _ => false end) = Err ValueError /\
  depth_factory sd_ld_types (fun _ => false) = Ok None.
Proof. repeat split. Qed.

(** C64 *)
Theorem c64_levels_from_file_partial :
  forall levels, levels <> [] -> Monotone levels ->
  (forall i x, nth_error levels i = Some x -> (0 <= x)%Q) ->
  exists l k, l_from_levels levels = Ok l /\ length l = length levels /\ Monotone l /\
    (forall i x, nth_error levels i = Some x -> nth_error l i = Some (if Nat.eqb i k then 0%Q else x)) /\
    (forall i x, nth_error levels i = Some x -> i <> k -> (0 < x)%Q) /\ nth_error l k = Some 0%Q.
Proof. exact l_from_levels_spec. Qed.
Print Assumptions c64_levels_from_file_partial.
(** Levels given as negative heights: the deepest one is moved to the surface and
    the axis is no longer monotone, so every query raises. *)
Theorem c64_negative_levels_refuted :
  exists levels l, Monotone levels /\ l_from_levels levels = Ok l /\ ~ Monotone l /\
    l_alphas l (Some 3%nat) BExtrapolate BMask [5%Q] = Err ValueError.
Proof.
  exists [-30; -10; -1]%Q. eexists. split; [left; apply asc3; reflexivity|]. split; [vm_compute; reflexivity|].
  split; [|vm_compute; reflexivity].
  intros [H|H].
  - specialize (H 0%nat 1%nat _ _ ltac:(lia) eq_refl eq_refl). discriminate H.
  - specialize (H 1%nat 2%nat _ _ ltac:(lia) eq_refl eq_refl). discriminate H.
Qed.
Print Assumptions c64_negative_levels_refuted.
Example c64_example : l_from_levels [1; 10; 30]%Q = Ok [0; 10; 30]%Q /\ l_from_levels [30; 10; 1]%Q = Ok [30; 10; 0]%Q.
Proof. split; vm_compute; reflexivity. Qed.
