(** Properties C10-C16 of gridded/variable.py. *)
From Coq Require Import String Lqa.
From Verif Require Import Common CommonProofs TimeModel TimeSpec TimeProofs
  VariableModel VariableSpec VariableProofs VariableInterpProofs VariableAtProofs.
Open Scope Z_scope.

(** C10.  [at_time] is [at] without the cache on data whose order is
    time, then the horizontal dimension(s); [leaf [k] p] is the horizontal
    interpolation of the k-th field at point p.  The sampled-time clause needs
    the fields to be numbers (no masked or NaN entries): see the refutation. *)
Theorem c10_sampled_time_partial :
  forall P (g : grid_kind) (leaf : list nat -> P -> cell) t rest depth pts q ex k,
  StrictlyIncreasing (t_data t) -> t_data t <> [] ->
  nth_error (t_data t) k = Some q ->
  (forall j, Forall numeric (field leaf pts j)) ->
  exists vs, at_time g leaf t rest depth pts q ex = Ok vs /\ ceqs vs (field leaf pts k).
Proof. intros P g leaf t rest depth pts q ex k HSI Hne. exact (at_time_sample g leaf t rest depth pts HSI Hne q ex k). Qed.
Print Assumptions c10_sampled_time_partial.
(** An interior sample is reached by blending with the sample before it, so
    a masked entry there hides a valid value. *)
Theorem c10_sampled_time_refuted :
  exists (leaf : list nat -> unit -> cell) t q k,
    StrictlyIncreasing (t_data t) /\ nth_error (t_data t) k = Some q /\
    at_time GOther leaf t [1%nat] None [tt] q false = Ok [CMasked] /\ leaf [k] tt = CVal 5.
Proof.
  exists (fun ix _ => match ix with [O] => CMasked | _ => CVal 5 end), (mkTime [0; 10; 20] None None), 10, 1%nat.
  split; [|split; [reflexivity|split; [vm_compute; reflexivity|reflexivity]]].
  apply (proj1 (checks_iff [0; 10; 20])). split; reflexivity.
Qed.
Print Assumptions c10_sampled_time_refuted.
Theorem c10_between_samples :
  forall P (g : grid_kind) (leaf : list nat -> P -> cell) t rest depth pts q ex k t0 t1,
  StrictlyIncreasing (t_data t) -> t_data t <> [] ->
  nth_error (t_data t) k = Some t0 -> nth_error (t_data t) (S k) = Some t1 -> t0 < q < t1 ->
  exists alpha, (inject_Z t0 + alpha * (inject_Z t1 - inject_Z t0) == inject_Z q)%Q /\
    (0 <= alpha <= 1)%Q /\
    at_time g leaf t rest depth pts q ex =
      Ok (map (fun p => cell_lerp (leaf [k] p) (leaf [S k] p) alpha) pts).
Proof. intros P g leaf t rest depth pts q ex k t0 t1 HSI Hne. exact (at_time_between g leaf t rest depth pts HSI Hne q ex k t0 t1). Qed.
Print Assumptions c10_between_samples.
(** ... and such a blend lies between the two values. *)
Theorem c10_blend_is_between :
  forall x y a r, (0 <= a <= 1)%Q -> cell_lerp (CVal x) (CVal y) a = CVal r -> QBetween x y r.
Proof. exact lerp_between. Qed.
Print Assumptions c10_blend_is_between.
Theorem c10_constant_field :
  forall P (g : grid_kind) (leaf : list nat -> P -> cell) t rest depth pts q ex c,
  StrictlyIncreasing (t_data t) -> t_data t <> [] -> (forall k p, leaf [k] p = c) ->
  (ex = true \/ length (t_data t) = 1%nat \/ InRange (t_data t) q) ->
  exists vs, at_time g leaf t rest depth pts q ex = Ok vs /\ ceqs vs (map (fun _ => c) pts).
Proof. intros P g leaf t rest depth pts q ex c HSI Hne. exact (at_time_constant g leaf t rest depth pts HSI Hne q ex c). Qed.
Print Assumptions c10_constant_field.
Theorem c10_extrapolated :
  forall P (g : grid_kind) (leaf : list nat -> P -> cell) t rest depth pts q a b,
  StrictlyIncreasing (t_data t) -> t_data t <> [] ->
  nth_error (t_data t) 0 = Some a -> nth_error (t_data t) (length (t_data t) - 1) = Some b ->
  (q <= a -> at_time g leaf t rest depth pts q true = Ok (field leaf pts 0)) /\
  (b <= q -> at_time g leaf t rest depth pts q true = Ok (field leaf pts (length (t_data t) - 1))).
Proof.
  intros P g leaf t rest depth pts q a b HSI Hne Ha Hb.
  exact (conj (at_time_before g leaf t rest depth pts HSI Hne q a Ha)
              (at_time_after g leaf t rest depth pts HSI Hne q b Hb)).
Qed.
Print Assumptions c10_extrapolated.
Theorem c10_out_of_range :
  forall P (g : grid_kind) (leaf : list nat -> P -> cell) t rest depth pts q,
  StrictlyIncreasing (t_data t) -> t_data t <> [] -> length (t_data t) <> 1%nat ->
  ~ InRange (t_data t) q ->
  at_time g leaf t rest depth pts q false = Err OutOfTimeRangeError.
Proof. intros P g leaf t rest depth pts q HSI Hne. exact (at_time_out g leaf t rest depth pts HSI Hne q). Qed.
Print Assumptions c10_out_of_range.
Theorem c10_single_time :
  forall P (g : grid_kind) (leaf : list nat -> P -> cell) t rest depth pts q ex,
  StrictlyIncreasing (t_data t) -> t_data t <> [] -> length (t_data t) = 1%nat ->
  exists vs, at_time g leaf t rest depth pts q ex = Ok vs /\ ceqs vs (field leaf pts 0).
Proof. intros P g leaf t rest depth pts q ex HSI Hne. exact (at_time_single g leaf t rest depth pts HSI Hne q ex). Qed.
Print Assumptions c10_single_time.
(** With an explicit depth-before-time ordering the depth index chosen so far
    is thrown away at the first time (variable.py:680): wrong-rank data. *)
Theorem c10_depth_before_time_refuted :
  exists (leaf : list nat -> unit -> cell) t dv,
    (forall ix, leaf ix tt = CVal 1) /\
    at_nomem [DDepth; DTime; DEle] [3; 2; 4]%nat leaf (Some t) (Some dv) 0 false [tt] = Err ValueError /\
    at_nomem [DDepth; DTime; DEle] [3; 2; 4]%nat leaf (Some t) (Some dv) 5 false [tt] = Ok [CVal (1 + (1 - 1) * (5 # 10) + (1 + (1 - 1) * (5 # 10) - (1 + (1 - 1) * (5 # 10))) * (1 # 2))%Q].
Proof.
  exists (fun _ _ => CVal 1), (mkTime [0; 10] None None), (mkDV 2 (fun _ => Ok ([Some 0], [1 # 2]%Q))).
  split; [auto|]. split; vm_compute; reflexivity.
Qed.
Print Assumptions c10_depth_before_time_refuted.
Example c10_example :
  let t := mkTime [0; 10; 30] None None in
  let leaf := fun ix (p : Q) => match ix with [k] => CVal (p + inject_Z (Z.of_nat k)) | _ => CNaN end in
  StrictlyIncreasing (t_data t) /\
  exists v1 v2, at_time GStructured leaf t [4; 4]%nat None [1; 2]%Q 15 false = Ok [CVal v1; CVal v2] /\
    (v1 == 9 # 4)%Q /\ (v2 == 13 # 4)%Q.
Proof.
  cbv zeta. split; [apply (proj1 (checks_iff [0; 10; 30])); split; reflexivity|].
  do 2 eexists. split; [vm_compute; reflexivity|]. split; vm_compute; reflexivity.
Qed.

(** C11 *)
Theorem c11_cache_bounded :
  forall K V (keqb : K -> K -> bool), (forall a b, keqb a b = true <-> a = b) ->
  forall cap (h : list (K * V)),
  (length (memo_run keqb cap h) <= S cap)%nat /\ NoDup (map fst (memo_run keqb cap h)).
Proof. exact @run_bounded. Qed.
Print Assumptions c11_cache_bounded.
Theorem c11_capacities : S var_memo_cap = 5%nat /\ S vector_memo_cap = 9%nat.
Proof. split; reflexivity. Qed.
Theorem c11_at_cache_bounded :
  forall D V (compute : D -> request -> result V) ops d,
  let s := fst (at_run compute (mkAt d []) ops) in
  (length (as_memo s) <= 5)%nat /\ NoDup (map fst (as_memo s)).
Proof. intros D V compute ops d. exact (at_run_bounded compute ops (mkAt d []) (Nat.le_0_l 5) (NoDup_nil _)). Qed.
Print Assumptions c11_at_cache_bounded.
Theorem c11_hit_is_latest :
  forall K V (keqb : K -> K -> bool), (forall a b, keqb a b = true <-> a = b) ->
  forall cap (h : list (K * V)) k v,
  memo_get keqb (memo_run keqb cap h) k = Some v -> LatestStore h k v.
Proof. exact @run_latest. Qed.
Print Assumptions c11_hit_is_latest.
(** What one store does to every lookup: the stored key answers the new
    value; only when the cache is full, the oldest key is lost; nothing else
    changes. *)
Theorem c11_store_effect :
  forall K V (keqb : K -> K -> bool), (forall a b, keqb a b = true <-> a = b) ->
  forall cap (d : list (K * V)) k v, NoDup (map fst d) ->
  forall k', memo_get keqb (memo_store keqb cap d k v) k' =
    if keqb k k' then Some v
    else if Nat.ltb cap (length d) && match d with (k0, _) :: _ => keqb k0 k' | [] => false end then None
    else memo_get keqb d k'.
Proof. exact @store_effect. Qed.
Print Assumptions c11_store_effect.
Theorem c11_keeps_the_newest :
  forall K V (keqb : K -> K -> bool), (forall a b, keqb a b = true <-> a = b) ->
  forall cap (h : list (K * V)), NoDup (map fst h) ->
  memo_run keqb cap h = skipn (length h - S cap) h.
Proof. exact @run_tail. Qed.
Print Assumptions c11_keeps_the_newest.
Example c11_example :
  memo_run Nat.eqb var_memo_cap [(1,10); (2,20); (3,30); (4,40); (5,50); (6,60); (4,41)]%nat
  = [(3,30); (4,41); (5,50); (6,60)]%nat.
Proof. vm_compute. reflexivity. Qed.

(** C12.  The three ways in which the cache shows. *)
Definition demo_compute (t : time_obj) (r : request) : result (list cell) :=
  at_nomem [DTime; DEle] [length (t_data t); 1%nat]
    (fun ix _ => match ix with [k] => CVal (inject_Z (Z.of_nat k)) | _ => CNaN end)
    (Some t) None (rq_time r) (Nat.eqb (rq_opts r) 1) (rq_pts r).
(** (a) new data, old answer *)
Theorem c12_data_assignment_refuted :
  exists d d' r, snd (at_run demo_compute (mkAt d []) [Call r; SetData d'; Call r])
              <> at_ref demo_compute d [Call r; SetData d'; Call r].
Proof.
  exists (mkTime [0; 10] None None), (mkTime [-5; 5] None None), (mkReq [[1; 2]]%Q 5 0).
  vm_compute. discriminate.
Qed.
Print Assumptions c12_data_assignment_refuted.
(** (b) extrapolate=True remembered for extrapolate=False: no exception *)
Theorem c12_options_refuted :
  exists d r1 r2, rq_pts r1 = rq_pts r2 /\ rq_time r1 = rq_time r2 /\
    at_ref demo_compute d [Call r1; Call r2] = [Some (Ok [CVal 1]); Some (Err OutOfTimeRangeError)] /\
    snd (at_run demo_compute (mkAt d []) [Call r1; Call r2]) = [Some (Ok [CVal 1]); Some (Ok [CVal 1])].
Proof.
  exists (mkTime [0; 10] None None), (mkReq [[1; 2]]%Q 50 1), (mkReq [[1; 2]]%Q 50 0).
  repeat split; vm_compute; reflexivity.
Qed.
Print Assumptions c12_options_refuted.
(** (c) three 2-D points and two 3-D points with the same numbers share a key *)
Theorem c12_shape_collision_refuted :
  exists d r1 r2 v1 v2, length (rq_pts r1) <> length (rq_pts r2) /\
    snd (at_run demo_compute (mkAt d []) [Call r1; Call r2]) = [Some (Ok v1); Some (Ok v1)] /\
    at_ref demo_compute d [Call r1; Call r2] = [Some (Ok v1); Some (Ok v2)] /\
    length v2 = length (rq_pts r2) /\ v1 <> v2.
Proof.
  exists (mkTime [0; 10] None None), (mkReq [[1; 2]; [3; 4]; [5; 6]]%Q 0 0),
         (mkReq [[1; 2; 3]; [4; 5; 6]]%Q 0 0).
  do 2 eexists. split; [simpl; lia|]. split; [vm_compute; reflexivity|]. split; [vm_compute; reflexivity|].
  split; [reflexivity|]. vm_compute. discriminate.
Qed.
Print Assumptions c12_shape_collision_refuted.
(** The part that holds: without data assignments, and with one point width
    and one set of options, every history of calls is answered as without
    cache (errors included).  Missing: the three cases above. *)
Theorem c12_transparent_partial :
  forall D V (compute : D -> request -> result V) cols opts d ops, (0 < cols)%nat ->
  Forall (fun op => match op with Call r => uniform cols opts r | SetData _ => False end) ops ->
  snd (at_run compute (mkAt d []) ops) = at_ref compute d ops.
Proof. intros D V compute cols opts d ops. exact (at_run_transparent_fresh compute cols opts d ops). Qed.
Print Assumptions c12_transparent_partial.
Example c12_example :
  let r q := mkReq [[1; 2]; [3; 4]]%Q q 0 in
  Forall (fun op => match op with Call r => uniform 2 0 r | SetData _ => False end)
         [Call (D := time_obj) (r 0); Call (r 10); Call (r 11); Call (r 0)] /\
  snd (at_run demo_compute (mkAt (mkTime [0; 10] None None) []) [Call (r 0); Call (r 10); Call (r 11); Call (r 0)])
  = [Some (Ok [CVal 0; CVal 0]); Some (Ok [CVal 1; CVal 1]); Some (Err OutOfTimeRangeError); Some (Ok [CVal 0; CVal 0])].
Proof.
  cbv zeta. split; [|vm_compute; reflexivity].
  repeat constructor.
Qed.

(** C13.  [idxs]/[alphas] is the depth axis's answer for the points;
    index -1 is the extrapolated end (alpha 1), and [level_value] resolves it as
    Python does.  Missing from the level theorem: points at index nd-1, which
    the code handles wrongly (next two theorems). *)
Theorem c13_levels_partial :
  forall P g (leaf : list nat -> P -> cell) nd rest time dv q ex pts idxs alphas,
  dv_alphas dv pts = Ok (idxs, alphas) -> length idxs = length pts -> length alphas = length pts ->
  nd <> dv_layers dv -> (forall i, In (Some i) idxs -> -1 <= i < Z.of_nat nd - 1) ->
  exists vs, at_nomem (DDepth :: horizontal g) (nd :: rest) leaf time (Some dv) q ex pts = Ok vs /\
    length vs = length pts /\
    forall k p o a, nth_error pts k = Some p -> nth_error idxs k = Some o -> nth_error alphas k = Some a ->
      nth_error vs k = Some (match o with
                             | None => CMasked
                             | Some i => cell_lerp (level_value leaf [] nd i p) (level_value leaf [] nd (i + 1) p) a end).
Proof. exact @at_depth_levels. Qed.
Print Assumptions c13_levels_partial.
(** Points extrapolated past the first level get the first level's value. *)
Theorem c13_extrapolated_first_level :
  forall x y a, numeric x -> (a == 1)%Q -> ceq (cell_lerp x y a) y.
Proof. exact lerp_one. Qed.
Print Assumptions c13_extrapolated_first_level.
Theorem c13_time_and_depth_partial :
  forall P g (leaf : list nat -> P -> cell) nd rest t dv q ex pts idxs alphas k t0 t1,
  StrictlyIncreasing (t_data t) ->
  dv_alphas dv pts = Ok (idxs, alphas) -> length idxs = length pts -> length alphas = length pts ->
  nd <> dv_layers dv -> (forall i, In (Some i) idxs -> -1 <= i < Z.of_nat nd - 1) ->
  nth_error (t_data t) k = Some t0 -> nth_error (t_data t) (S k) = Some t1 -> t0 < q < t1 ->
  exists alpha vs,
    (inject_Z t0 + alpha * (inject_Z t1 - inject_Z t0) == inject_Z q)%Q /\ (0 <= alpha <= 1)%Q /\
    at_nomem ([DTime; DDepth] ++ horizontal g) (length (t_data t) :: nd :: rest) leaf (Some t) (Some dv) q ex pts = Ok vs /\
    length vs = length pts /\
    forall j p o a, nth_error pts j = Some p -> nth_error idxs j = Some o -> nth_error alphas j = Some a ->
      nth_error vs j = Some (match o with
        | None => CMasked
        | Some i => cell_lerp
            (cell_lerp (level_value leaf [k] nd i p) (level_value leaf [k] nd (i + 1) p) a)
            (cell_lerp (level_value leaf [S k] nd i p) (level_value leaf [S k] nd (i + 1) p) a) alpha end).
Proof. exact @at_time_depth_levels. Qed.
Print Assumptions c13_time_and_depth_partial.
Theorem c13_layers_partial :
  forall P g (leaf : list nat -> P -> cell) nd rest time dv q ex pts idxs alphas,
  dv_alphas dv pts = Ok (idxs, alphas) -> length idxs = length pts -> length alphas = length pts ->
  nd = dv_layers dv -> (forall i, In (Some i) idxs -> 0 <= i < Z.of_nat nd) ->
  exists vs, at_nomem (DDepth :: horizontal g) (nd :: rest) leaf time (Some dv) q ex pts = Ok vs /\
    length vs = length pts /\
    forall k p o, nth_error pts k = Some p -> nth_error idxs k = Some o ->
      nth_error vs k = Some (match o with None => CMasked | Some i => leaf [Z.to_nat i] p end).
Proof. exact @at_depth_layers. Qed.
Print Assumptions c13_layers_partial.
(** Every query whose unmasked points all sit at the last level raises. *)
Theorem c13_last_level_always_raises :
  forall P g (leaf : list nat -> P -> cell) nd rest time dv q ex pts idxs alphas,
  dv_alphas dv pts = Ok (idxs, alphas) -> nd <> dv_layers dv -> (exists i, In (Some i) idxs) ->
  (forall i, In (Some i) idxs -> i = Z.of_nat nd - 1) ->
  at_nomem (DDepth :: horizontal g) (nd :: rest) leaf time (Some dv) q ex pts = Err UnboundLocalError.
Proof. exact @at_depth_last_only. Qed.
Print Assumptions c13_last_level_always_raises.
(** Mixed with others: the previous group of points is overwritten with the
    last level's value, and the point itself stays NaN. *)
Theorem c13_last_level_refuted :
  exists (leaf : list nat -> Q -> cell) dv pts vs,
    (forall j p, leaf [j] p = CVal (inject_Z (Z.of_nat j))) /\
    at_nomem [DDepth; DEle] [3; 1]%nat leaf None (Some dv) 0 false pts = Ok vs /\
    dv_alphas dv pts = Ok ([Some 0; Some 2], [0; 0]%Q) /\ vs = [CVal 2; CNaN].
Proof.
  exists (fun ix _ => match ix with [j] => CVal (inject_Z (Z.of_nat j)) | _ => CNaN end),
         (mkDV 2 (fun _ => Ok ([Some 0; Some 2], [0; 0]%Q))), [7; 8]%Q.
  eexists. split; [auto|]. split; [vm_compute; reflexivity|]. split; reflexivity.
Qed.
Print Assumptions c13_last_level_refuted.
(** Layer data, a point above the first level: index -1 is rewritten to 0 before
    the points are looked up, so its value is never filled in. *)
Theorem c13_layer_above_refuted :
  exists (leaf : list nat -> Q -> cell) dv pts vs,
    (forall j p, leaf [j] p = CVal (inject_Z (Z.of_nat j))) /\
    at_nomem [DDepth; DEle] [2; 1]%nat leaf None (Some dv) 0 false pts = Ok vs /\
    dv_alphas dv pts = Ok ([Some (-1); Some 1], [1; 0]%Q) /\ vs = [CNaN; CVal 1].
Proof.
  exists (fun ix _ => match ix with [j] => CVal (inject_Z (Z.of_nat j)) | _ => CNaN end),
         (mkDV 2 (fun _ => Ok ([Some (-1); Some 1], [1; 0]%Q))), [7; 8]%Q.
  eexists. split; [auto|]. split; [vm_compute; reflexivity|]. split; reflexivity.
Qed.
Print Assumptions c13_layer_above_refuted.
(** A point above the first level is blended (alpha 1) with index -1, i.e. the
    deepest level: a masked sea floor hides the surface value. *)
Theorem c13_extrapolated_mask_refuted :
  exists (leaf : list nat -> Q -> cell) dv pts,
    leaf [0%nat] 7%Q = CVal 3 /\ dv_alphas dv pts = Ok ([Some (-1)], [1]%Q) /\ pts = [7%Q] /\
    at_nomem [DDepth; DEle] [3; 1]%nat leaf None (Some dv) 0 false pts = Ok [CMasked].
Proof.
  exists (fun ix _ => match ix with [2%nat] => CMasked | _ => CVal 3 end),
         (mkDV 2 (fun _ => Ok ([Some (-1)], [1]%Q))), [7%Q].
  repeat split; vm_compute; reflexivity.
Qed.
Print Assumptions c13_extrapolated_mask_refuted.
Example c13_example :
  let leaf := fun ix (p : Q) => match ix with [j] => CVal (p + inject_Z (Z.of_nat j)) | _ => CNaN end in
  let dv := mkDV 3 (fun _ => Ok ([Some 1; None; Some (-1); Some 0], [1 # 2; 0; 1; 1 # 4]%Q)) in
  exists a b c, at_nomem [DDepth; DEle] [4; 9]%nat leaf None (Some dv) 0 false [10; 20; 30; 40]%Q
    = Ok [CVal a; CMasked; CVal b; CVal c] /\ (a == 23 # 2)%Q /\ (b == 30)%Q /\ (c == 161 # 4)%Q.
Proof. cbv zeta. do 3 eexists. split; [vm_compute; reflexivity|]. repeat split; vm_compute; reflexivity. Qed.

(** C14 *)
Theorem c14_ordering_matches_rank :
  forall g ndim ht hd o, dimension_ordering None g ndim ht hd = Ok o ->
  length o = ndim /\
  ((o = [DTime; DDepth] ++ horizontal g) \/
   (o = [DTime] ++ horizontal g /\ ht = true) \/
   (o = [DDepth] ++ horizontal g /\ ht = false /\ hd = true) \/
   o = horizontal g).
Proof. exact ordering_ok. Qed.
Print Assumptions c14_ordering_matches_rank.
Theorem c14_ordering_defined_iff :
  forall g ndim ht hd,
  let full := (2 + length (horizontal g))%nat in
  match dimension_ordering None g ndim ht hd with
  | Ok o => (ndim = full \/ (ndim = full - 1 /\ (ht || hd = true)) \/ ndim = full - 2)%nat
  | Err e => e = ValueError /\
             ~ (ndim = full \/ (ndim = full - 1 /\ (ht || hd = true)) \/ ndim = full - 2)%nat
  end.
Proof. exact ordering_total. Qed.
Print Assumptions c14_ordering_defined_iff.
Theorem c14_explicit_ordering_wins :
  forall o g ndim ht hd, dimension_ordering (Some o) g ndim ht hd = Ok o.
Proof. reflexivity. Qed.
Example c14_example :
  dimension_ordering None GStructured 3 false true = Ok [DDepth; DLon; DLat] /\
  dimension_ordering None GOther 2 true true = Ok [DTime; DEle] /\
  dimension_ordering None GOther 5 true true = Err ValueError.
Proof. repeat split; vm_compute; reflexivity. Qed.

(** C15 *)
Theorem c15_history_consistent :
  forall infer shape t loc v ops, var_init infer shape t loc = Ok v ->
  forall o, vs_time (fold_left (var_step infer) ops v) = Some o -> (1 < length (t_data o))%nat ->
  exists r, vs_shape (fold_left (var_step infer) ops v) = length (t_data o) :: r.
Proof. exact var_history_consistent. Qed.
Print Assumptions c15_history_consistent.
Theorem c15_time_accepted_iff :
  forall v o d r, vs_shape v = d :: r ->
  (length (t_data o) = d \/ length (t_data o) <= 1)%nat <->
  set_time v (TObj o) = Ok (mkVS (vs_shape v) (Some o) (vs_loc v)).
Proof. exact set_time_accepts. Qed.
Print Assumptions c15_time_accepted_iff.
Theorem c15_time_rejected :
  forall v o d r, vs_shape v = d :: r ->
  (length (t_data o) <> d /\ 1 < length (t_data o))%nat -> set_time v (TObj o) = Err ValueError.
Proof. exact set_time_rejects. Qed.
Print Assumptions c15_time_rejected.
Theorem c15_data_rejected :
  forall infer v o d r, vs_time v = Some o -> d <> length (t_data o) ->
  set_data infer v (d :: r) = Err ValueError.
Proof. exact set_data_rejects. Qed.
Print Assumptions c15_data_rejected.
Theorem c15_data_accepted :
  forall v o d r, vs_time v = Some o -> d = length (t_data o) ->
  (forall f l, vs_loc v = Some l ->
     set_data (Some f) v (d :: r) = Ok (mkVS (d :: r) (Some o) (Some l))) /\
  (forall f, vs_loc v = None -> set_data (Some f) v (d :: r) =
     match f (d :: r) with
     | Some l => Ok (mkVS (d :: r) (Some o) (Some l)) | None => Err ValueError end) /\
  set_data None v (d :: r) = Ok (mkVS (d :: r) (Some o) (vs_loc v)).
Proof. exact set_data_accepts. Qed.
Print Assumptions c15_data_accepted.
Example c15_example :
  let v := mkVS [3; 7]%nat (Some (mkTime [0; 1; 2] None None)) None in
  var_init None [3; 7]%nat (TList [0; 1; 2]) None = Ok v /\
  var_assign None v (OpData [4; 7]%nat) = Err ValueError /\
  var_assign None v (OpData [3; 9]%nat) = Ok (mkVS [3; 9]%nat (vs_time v) None) /\
  var_assign None v (OpTime (TList [0; 1])) = Err ValueError.
Proof. repeat split; vm_compute; reflexivity. Qed.

(** C16 *)
Theorem c16_first_candidate :
  forall file names stds,
  match gen_varname file names stds with
  | Ok n => FirstWith (InFile file) names n \/
            (NoneWith (InFile file) names /\
             exists s v, FirstWith (fun s => exists v, In v file /\ Labelled s v) stds s /\
                         FirstWith (Labelled s) file v /\ nc_name v = n)
  | Err e => e = ValueError /\ NoneWith (InFile file) names /\
             NoneWith (fun s => exists v, In v file /\ Labelled s v) stds
  end.
Proof. exact gen_varname_spec. Qed.
Print Assumptions c16_first_candidate.
(** The vector search takes the LAST matching name of each list. *)
Theorem c16_vector_last_candidate :
  forall file names stds,
  match gen_varnames_comp file names stds with
  | Some n =>
      LastWith (InFile file) names n \/
      (NoneWith (InFile file) names /\
       exists s v, LastWith (fun s => exists v, In v file /\ Labelled s v) stds s /\
                   FirstWith (Labelled s) file v /\ nc_name v = n)
  | None => NoneWith (InFile file) names /\
            NoneWith (fun s => exists v, In v file /\ Labelled s v) stds
  end.
Proof. exact gen_varnames_default. Qed.
Print Assumptions c16_vector_last_candidate.
Theorem c16_vector_precedence_refuted :
  exists file names, gen_varname file names [] <> match gen_varnames_comp file names [] with
                                                  | Some n => Ok n | None => Err ValueError end.
Proof.
  exists [mkNC "u" None None; mkNC "water_u" None None], ["u"; "water_u"]%string.
  vm_compute. discriminate.
Qed.
Print Assumptions c16_vector_precedence_refuted.
Example c16_example :
  let file := [mkNC "a" (Some "x") None; mkNC "b" None (Some "y"); mkNC "c" (Some "y") None]%string in
  gen_varname file ["z"; "c"; "a"]%string ["y"]%string = Ok "c"%string /\
  gen_varname file ["z"]%string ["w"; "y"; "x"]%string = Ok "b"%string /\
  gen_varname file ["z"]%string ["w"]%string = Err ValueError.
Proof. repeat split; vm_compute; reflexivity. Qed.
