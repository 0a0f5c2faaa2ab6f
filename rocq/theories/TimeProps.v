(** Properties C01-C09 of gridded/time.py. *)
From Coq Require Import String.
From Verif Require Import Common CommonProofs TimeModel TimeSpec TimeProofs TimeHeapProofs
  IsoModel IsoSpec IsoProofs.
Open Scope Z_scope.

(** C01.  Hypotheses: the two argument combinations that raise before the
    axis is looked at are covered by [c01_time_bad_arguments]. *)
Theorem c01_time_accepts_iff_increasing :
  forall data tz ntz origin disp,
  (origin <> None -> data <> []) -> (ntz <> None -> tz <> None) ->
  (StrictlyIncreasing data ->
   exists t, time_init data tz ntz origin disp = Ok t /\
     MovedBy (requested_move data tz ntz origin disp) data (t_data t) /\
     t_tz t = (match ntz with Some n => Some n | None => tz end) /\
     t_disp t = disp) /\
  (~ StrictlyIncreasing data ->
   time_init data tz ntz origin disp = Err TimeSeriesError).
Proof. exact time_init_accept. Qed.
Print Assumptions c01_time_accepts_iff_increasing.

Theorem c01_time_bad_arguments :
  forall data tz ntz origin disp,
  (origin <> None -> data = [] -> time_init data tz ntz origin disp = Err IndexError) /\
  ((origin <> None -> data <> []) -> ntz <> None -> tz = None ->
   time_init data tz ntz origin disp = Err ValueError).
Proof. exact time_init_bad_args. Qed.
Print Assumptions c01_time_bad_arguments.

(** Every object that exists has a strictly increasing axis, whatever has
    been assigned to it since. *)
Theorem c01_time_always_increasing :
  forall data tz ntz origin disp t h,
  time_init data tz ntz origin disp = Ok t ->
  StrictlyIncreasing (t_data (run_ops t h)).
Proof. intros data tz ntz origin disp t h H. exact (run_ops_SI h t (time_init_SI _ _ _ _ _ _ H)). Qed.
Print Assumptions c01_time_always_increasing.

Example c01_example :
  time_init [10; 20; 35] (Some 100) (Some 40) (Some 1000) (Some 5) =
  Ok (mkTime [945; 955; 970] (Some 40) (Some 5)).
Proof. vm_compute. reflexivity. Qed.
Example c01_example_rejected :
  time_init [10; 20; 20] None None None None = Err TimeSeriesError /\
  time_init [10; 30; 20] None None None None = Err TimeSeriesError.
Proof. split; vm_compute; reflexivity. Qed.

(** C02 *)
Theorem c02_index_of_counts_earlier :
  forall t q ex, StrictlyIncreasing (t_data t) -> length (t_data t) <> 1%nat ->
  (ex = true \/ InRange (t_data t) q) ->
  exists i, index_of t q ex = Ok i /\ EarlierCount (t_data t) q i.
Proof. exact index_of_ok. Qed.
Print Assumptions c02_index_of_counts_earlier.
Theorem c02_index_of_single :
  forall t q ex, length (t_data t) = 1%nat -> index_of t q ex = Ok O.
Proof. exact index_of_single. Qed.
Print Assumptions c02_index_of_single.
Theorem c02_index_is_unique :
  forall l q n m, EarlierCount l q n -> EarlierCount l q m -> n = m.
Proof. exact EarlierCount_unique. Qed.
Print Assumptions c02_index_is_unique.
Example c02_example :
  index_of (mkTime [10; 20; 35] None None) 20 false = Ok 1%nat /\
  index_of (mkTime [10; 20; 35] None None) 21 false = Ok 2%nat /\
  index_of (mkTime [10; 20; 35] None None) 99 true = Ok 3%nat.
Proof. repeat split; vm_compute; reflexivity. Qed.

(** C03 *)
Theorem c03_alpha_reproduces_query :
  forall t q ex, StrictlyIncreasing (t_data t) -> length (t_data t) <> 1%nat ->
  InRange (t_data t) q ->
  exists i alpha, index_of t q ex = Ok i /\ interp_alpha t q ex = Ok alpha /\
    (0 <= alpha <= 1)%Q /\
    ((i = O /\ nth_error (t_data t) 0 = Some q /\ alpha = 0%Q) \/
     exists k t0 t1, i = S k /\ nth_error (t_data t) k = Some t0 /\
       nth_error (t_data t) (S k) = Some t1 /\ t0 < q <= t1 /\
       (inject_Z t0 + alpha * (inject_Z t1 - inject_Z t0) == inject_Z q)%Q /\
       (q = t1 -> (alpha == 1)%Q) /\ (0 < alpha)%Q).
Proof. exact interp_alpha_bracket. Qed.
Print Assumptions c03_alpha_reproduces_query.
Theorem c03_position_strictly_increasing :
  forall t q1 q2 i1 i2 a1 a2, StrictlyIncreasing (t_data t) ->
  length (t_data t) <> 1%nat -> InRange (t_data t) q1 -> InRange (t_data t) q2 -> q1 < q2 ->
  index_of t q1 false = Ok i1 -> interp_alpha t q1 false = Ok a1 ->
  index_of t q2 false = Ok i2 -> interp_alpha t q2 false = Ok a2 ->
  (position i1 a1 < position i2 a2)%Q.
Proof. exact position_mono. Qed.
Print Assumptions c03_position_strictly_increasing.
Example c03_example :
  interp_alpha (mkTime [10; 20; 35] None None) 26 false = Ok (6 # 15)%Q /\
  InRange [10; 20; 35] 26.
Proof. split; [vm_compute; reflexivity|]. exists 10, 35. repeat split; try reflexivity; lia. Qed.

(** C04 *)
Theorem c04_raises_iff_out_of_range :
  forall t q ex, StrictlyIncreasing (t_data t) -> t_data t <> [] ->
  (index_of t q ex = Err OutOfTimeRangeError <->
     ex = false /\ length (t_data t) <> 1%nat /\ ~ InRange (t_data t) q) /\
  (interp_alpha t q ex = Err OutOfTimeRangeError <->
     ex = false /\ length (t_data t) <> 1%nat /\ ~ InRange (t_data t) q) /\
  (forall e, index_of t q ex = Err e \/ interp_alpha t q ex = Err e -> e = OutOfTimeRangeError).
Proof. exact raise_iff. Qed.
Print Assumptions c04_raises_iff_out_of_range.
Theorem c04_extrapolated_values :
  forall t q a b, StrictlyIncreasing (t_data t) -> length (t_data t) <> 1%nat ->
  nth_error (t_data t) 0 = Some a -> nth_error (t_data t) (length (t_data t) - 1) = Some b ->
  (q < a -> index_of t q true = Ok O /\ interp_alpha t q true = Ok 0%Q) /\
  (b < q -> index_of t q true = Ok (length (t_data t)) /\ interp_alpha t q true = Ok 1%Q).
Proof. exact extrapolate_outside. Qed.
Print Assumptions c04_extrapolated_values.
Theorem c04_single_time_alpha :
  forall t q ex, length (t_data t) = 1%nat -> interp_alpha t q ex = Ok 0%Q.
Proof. exact interp_alpha_single. Qed.
Print Assumptions c04_single_time_alpha.
(** Outside the theorem's hypothesis: an empty axis has no bounds to compare with. *)
Example c04_empty_axis : index_of (mkTime [] None None) 3 false = Err IndexError.
Proof. vm_compute. reflexivity. Qed.
Example c04_example :
  index_of (mkTime [10; 20] None None) 9 false = Err OutOfTimeRangeError /\
  interp_alpha (mkTime [10; 20] None None) 21 false = Err OutOfTimeRangeError /\
  interp_alpha (mkTime [10; 20] None None) 21 true = Ok 1%Q /\
  interp_alpha (mkTime [10] None None) 21 false = Ok 0%Q.
Proof. repeat split; vm_compute; reflexivity. Qed.

(** C05 *)
Theorem c05_tz_history_preserves_instants :
  forall t o h, t_tz t = Some o -> (forall x, In x h -> x <> None) ->
  exists n, t_tz (run_tz t h) = Some n /\ t_tz (run_tz t h) = last h (Some o) /\
    length (t_data (run_tz t h)) = length (t_data t) /\
    forall i x, nth_error (t_data t) i = Some x ->
      exists y, nth_error (t_data (run_tz t h)) i = Some y /\ y - n = x - o.
Proof. exact tz_instants. Qed.
Print Assumptions c05_tz_history_preserves_instants.
(** Any history, [None] included: the total move is the sum of the changes
    between adjacent known offsets; [None] steps only relabel. *)
Theorem c05_tz_history_total_move :
  forall h t, run_tz t h =
    mkTime (shift (relabel_move (t_tz t) h) (t_data t)) (last h (t_tz t)) (t_disp t).
Proof. exact run_tz_shift. Qed.
Print Assumptions c05_tz_history_total_move.
Example c05_example :
  run_tz (mkTime [0; 5] (Some 1) None) [Some 3; Some (-2); Some 1] = mkTime [0; 5] (Some 1) None /\
  run_tz (mkTime [0; 5] (Some 1) None) [None; Some 9] = mkTime [0; 5] (Some 9) None.
Proof. split; vm_compute; reflexivity. Qed.

(** C06 *)
Theorem c06_displacement_applied_once :
  forall t h, t_disp t = None ->
  run_disp t h =
  (mkTime (shift (match first_some h with Some d => d | None => 0 end) (t_data t))
          (t_tz t) (first_some h), disp_errors false h).
Proof. exact run_disp_spec. Qed.
Print Assumptions c06_displacement_applied_once.
Theorem c06_displacement_errors :
  forall h k d, nth_error h k = Some d ->
  (nth_error (disp_errors false h) k = Some (Some AttributeError) <->
     exists j x, (j < k)%nat /\ nth_error h j = Some (Some x)) /\
  (nth_error (disp_errors false h) k = Some None <->
     forall j, (j < k)%nat -> nth_error h j = Some None).
Proof. exact disp_errors_iff. Qed.
Print Assumptions c06_displacement_errors.
Theorem c06_displaced_object_refuses :
  forall t x h, t_disp t = Some x ->
  run_disp t h = (t, map (fun _ => Some AttributeError) h).
Proof. exact run_disp_set. Qed.
Print Assumptions c06_displaced_object_refuses.
Example c06_example :
  run_disp (mkTime [0; 5] None None) [None; Some 7; None; Some 1] =
  (mkTime [7; 12] None (Some 7), [None; None; Some AttributeError; Some AttributeError]).
Proof. vm_compute. reflexivity. Qed.

(** C07.  Full claim: an assignment to one Time never changes another, nor the
    caller's array.  False of the code; the three witnesses. *)
Theorem c07_time_from_time_refuted :
  exists ops op o t t', ~ addressed op o /\
    heap_view (heap_run ops) o = Some t /\
    heap_view (heap_step (heap_run ops) op) o = Some t' /\ t_data t <> t_data t'.
Proof.
  exists [HNewTime (FromList [0; 5]) (Some 0) None None None;
          HNewTime (FromTime 0) (Some 0) None None None], (HSetTz 1 (Some 3)), O.
  eexists. eexists. split; [simpl; lia|]. split; [vm_compute; reflexivity|].
  split; [vm_compute; reflexivity|]. vm_compute. discriminate.
Qed.
Print Assumptions c07_time_from_time_refuted.
Theorem c07_caller_array_refuted :
  exists l disp, buf_get (heap_run [HNewArray l; HNewTime (FromArray 0) None None None disp]) 0 <> l.
Proof. exists [0; 5], (Some 2). vm_compute. discriminate. Qed.
Print Assumptions c07_caller_array_refuted.
(** ... and the caller's array is moved even when the constructor raises. *)
Theorem c07_failed_constructor_mutates_refuted :
  exists l disp, time_init l None None None disp = Err TimeSeriesError /\
    buf_get (heap_run [HNewArray l; HNewTime (FromArray 0) None None None disp]) 0 <> l.
Proof. exists [5; 0], (Some 2). split; [vm_compute; reflexivity|]. vm_compute. discriminate. Qed.
Print Assumptions c07_failed_constructor_mutates_refuted.
(** How far the effect reaches: exactly the objects holding the same buffer. *)
Theorem c07_alias_effect :
  forall h o ob o' ob' old new,
  nth_error (h_objs h) o = Some ob -> nth_error (h_objs h) o' = Some ob' ->
  (h_buf ob < length (h_bufs h))%nat -> o <> o' -> h_tz ob = Some old ->
  forall t, heap_view h o' = Some t ->
  heap_view (heap_step h (HSetTz o (Some new))) o' =
    Some (if Nat.eqb (h_buf ob) (h_buf ob')
          then mkTime (shift (new - old) (t_data t)) (t_tz t) (t_disp t) else t).
Proof. exact heap_alias_effect. Qed.
Print Assumptions c07_alias_effect.
(** The part that holds: objects built from plain sequences are isolated, in
    every history.  Missing: Time(ndarray) and Time(Time). *)
Theorem c07_isolation_partial :
  forall ops op o, Forall from_list ops -> from_list op -> ~ addressed op o ->
  (o < length (h_objs (heap_run ops)))%nat ->
  heap_view (heap_step (heap_run ops) op) o = heap_view (heap_run ops) o.
Proof. intros ops op o Hf. exact (heap_step_isolated (heap_run ops) op o (heap_run_inv ops Hf)). Qed.
Print Assumptions c07_isolation_partial.
(** ... and an isolated object's own assignments do what the value-level
    setters say. *)
Theorem c07_own_assignment_partial :
  forall ops o t, Forall from_list ops -> heap_view (heap_run ops) o = Some t ->
  (forall off, heap_view (heap_step (heap_run ops) (HSetTz o off)) o = Some (set_tz t off)) /\
  (forall d, heap_view (heap_step (heap_run ops) (HSetDisp o d)) o = Some (fst (set_disp t d))).
Proof. intros ops o t Hf. exact (heap_step_own (heap_run ops) o t (heap_run_inv ops Hf)). Qed.
Print Assumptions c07_own_assignment_partial.
Example c07_example :
  let ops := [HNewTime (FromList [0; 5]) (Some 0) None None None;
              HNewTime (FromList [0; 5]) (Some 0) None None None] in
  Forall from_list ops /\ length (h_objs (heap_run ops)) = 2%nat /\
  heap_view (heap_step (heap_run ops) (HSetTz 1 (Some 3))) 0 = Some (mkTime [0; 5] (Some 0) None).
Proof. split; [repeat constructor|split; vm_compute; reflexivity]. Qed.

(** C08 *)
Theorem c08_eq_characterised :
  forall a b, time_eqb a b = true <-> t_data a = t_data b /\ t_tz a = t_tz b.
Proof. exact time_eqb_iff. Qed.
Print Assumptions c08_eq_characterised.
Theorem c08_eq_equivalence :
  (forall a, time_eqb a a = true) /\
  (forall a b, time_eqb a b = time_eqb b a) /\
  (forall a b c, time_eqb a b = true -> time_eqb b c = true -> time_eqb a c = true) /\
  (forall a b, time_neb a b = negb (time_eqb a b)).
Proof.
  split; [|split; [|split]].
  - intros a. apply time_eqb_iff. auto.
  - intros a b. apply Bool.eq_iff_eq_true. rewrite !time_eqb_iff. intuition congruence.
  - intros a b c. rewrite !time_eqb_iff. intuition congruence.
  - reflexivity.
Qed.
Print Assumptions c08_eq_equivalence.
Theorem c08_equal_answers :
  forall a b q ex, time_eqb a b = true ->
  index_of a q ex = index_of b q ex /\ interp_alpha a q ex = interp_alpha b q ex /\
  time_in_bounds a q = time_in_bounds b q.
Proof. exact time_eqb_queries. Qed.
Print Assumptions c08_equal_answers.
Example c08_example :
  time_eqb (mkTime [0; 5] None None) (mkTime [0; 5] None (Some 1)) = true /\
  time_eqb (mkTime [0; 5] None None) (mkTime [0; 5] (Some 0) None) = false /\
  time_eqb (mkTime [0; 5] None None) (mkTime [0; 5; 6] None None) = false.
Proof. repeat split; vm_compute; reflexivity. Qed.

(** C09.  Exact arithmetic: every whole-minute offset is printed so that it
    reads back as itself. *)
Theorem c09_iso_exact_partial :
  forall m q, (q == inject_Z m / 60)%Q ->
  read_offset (offset_as_iso_string (Some q)) = Some m.
Proof. exact iso_round_trip. Qed.
Print Assumptions c09_iso_exact_partial.
Theorem c09_iso_none : offset_as_iso_string None = EmptyString.
Proof. reflexivity. Qed.
(** binary64, as the code computes: right for every quarter-hour offset ... *)
Theorem c09_iso_quarter_hours_partial :
  forall k, -96 <= k <= 96 ->
  exists s, f_offset_as_iso_string (f_hours_of_minutes (15 * k)) = Some s /\
            read_offset s = Some (15 * k).
Proof. exact quarter_all. Qed.
Print Assumptions c09_iso_quarter_hours_partial.
(** ... but not for every whole minute: 61 minutes is printed "+01:00". *)
Theorem c09_iso_whole_minutes_refuted :
  exists m s, f_offset_as_iso_string (f_hours_of_minutes m) = Some s /\ read_offset s <> Some m.
Proof. exists 61. exact sixty_one_bad. Qed.
Print Assumptions c09_iso_whole_minutes_refuted.
Example c09_example :
  offset_as_iso_string (Some (-(21 # 2)))%Q = "-10:30"%string /\
  f_offset_as_iso_string (f_hours_of_minutes (-630)) = Some "-10:30"%string /\
  f_offset_as_iso_string (f_hours_of_minutes 61) = Some "+01:00"%string.
Proof. repeat split; vm_compute; reflexivity. Qed.
