(** Theorems about VectorVariable (C72-C74). *)
From Coq Require Import Ascii String.
From Verif Require Import Common CommonProofs TimeModel TimeHeapProofs VariableModel VariableSpec VariableProofs
  VVarModel VVarSpec VVarProofs.
Open Scope nat_scope.

(** ** C72: values of a vector *)
(** Without the cache: column [k] is the answer of component [k], an exception
    is that of the first component that fails, and nothing is remembered. *)
Theorem c72_columns :
  forall D V (compute : D -> request -> result V) (s : vec_state D V) r,
  fst (vec_at compute false s r) = s /\
  Columns compute r (map as_data (vc_comps s)) (snd (vec_at compute false s r)).
Proof.
  intros D V compute s r. unfold vec_at. cbv iota.
  destruct (comps_at_columns compute (vc_comps s) r) as [A B].
  destruct (comps_at compute false (vc_comps s) r) as [cs [vs|e]]; cbn [fst snd] in *; subst;
    (split; [destruct s; reflexivity|exact B]).
Qed.
Print Assumptions c72_columns.
(** The relation determines the answer. *)
Theorem c72_columns_unique :
  forall D V (compute : D -> request -> result V) r ds a b,
  Columns compute r ds a -> Columns compute r ds b -> a = b.
Proof. exact @Columns_det. Qed.
Print Assumptions c72_columns_unique.

(** In every history of queries of the vector and of its components, and of
    assignments to their data, an answer consists of the components' present
    answers, or was given before to a query with the same key. *)
Theorem c72_fresh_or_seen :
  forall D V (compute : D -> request -> result V) cs ops mem r v,
  let run := vec_run compute (mkVec cs []) ops in
  snd (vec_at compute mem (fst run) r) = Ok v ->
  Forall2 (fun c x => snd (comp_at compute mem c r) = Ok x) (vc_comps (fst run)) v \/
  (mem = true /\ SeenBefore ops (snd run) r v).
Proof.
  intros D V compute cs ops mem r v run H. unfold run in *. rewrite <- comps_at_each.
  apply (vec_at_cases compute ops (mkVec cs []) mem r v); auto.
Qed.
Print Assumptions c72_fresh_or_seen.

(** In every history the vector keeps at most nine answers and each component
    at most five, with distinct keys. *)
Theorem c72_bounded :
  forall D V (compute : D -> request -> result V) (ds : list D) ops,
  let s := fst (vec_run compute (mkVec (map (fun d => mkAt d []) ds) []) ops) in
  length (vc_memo s) <= 9 /\ NoDup (map fst (vc_memo s)) /\ length (vc_comps s) = length ds /\
  Forall (fun c => length (as_memo c) <= 5 /\ NoDup (map fst (as_memo c))) (vc_comps s).
Proof.
  intros D V compute ds ops s.
  assert (K := vec_run_bounded compute ops (mkVec (map (fun d => mkAt d []) ds) [])).
  cbn [vc_comps vc_memo] in K. cbv zeta in K. fold s in K.
  destruct K as (A & B & C & E).
  - apply Forall_forall. intros c Hc. apply in_map_iff in Hc. destruct Hc as (d & <- & _).
    split; cbn; [lia|constructor].
  - cbn; lia.
  - constructor.
  - rewrite map_length in E. auto.
Qed.
Print Assumptions c72_bounded.

(** As long as no component is given new data, and points have one width and
    calls one set of options, every answer of the vector is the column stack of
    the components computed from their data, however the queries of vector and
    components are mixed.  Missing: the cases of the next theorems, and those
    refuted for one variable in C12. *)
Theorem c72_transparent_partial :
  forall D V (compute : D -> request -> result V) c o (ds : list D) ops, 0 < c ->
  Forall (fun op => match op with
                    | VAt _ r | VComp _ (Call r) => uniform c o r
                    | VComp _ (SetData _) => False
                    end) ops ->
  Forall2 (AnswersFrom compute ds) ops (snd (vec_run compute (mkVec (map (fun d => mkAt d []) ds) []) ops)).
Proof.
  intros D V compute c o ds ops Hc Hf.
  assert (E : map as_data (map (fun d => mkAt (V := V) d []) ds) = ds).
  { rewrite map_map. cbn. apply map_id. }
  assert (K := vec_run_transparent compute c o ops Hc (mkVec (map (fun d => mkAt d []) ds) [])).
  cbn [vc_comps] in K. rewrite E in K. apply K; auto.
  split; [|split]; cbn [vc_comps vc_memo].
  - apply Forall_forall. intros x Hx. apply in_map_iff in Hx. destruct Hx as (d & <- & _).
    split; [intros k v H; discriminate|constructor].
  - intros k v H. discriminate.
  - constructor.
Qed.
Print Assumptions c72_transparent_partial.

Definition vdemo (d : Z) (r : request) : result Z :=
  if (rq_time r <? 0)%Z then Err OutOfTimeRangeError else Ok (d + rq_time r)%Z.
Definition vreq (q : Z) : request := mkReq [[1; 2]]%Q q 0.
(** New data for a component: the vector still answers the old value, and so
    does the component; with [_mem=False] the new one appears. *)
Theorem c72_component_data_refuted :
  exists ds d' r, snd (vec_run vdemo (mkVec (map (fun d => mkAt d []) ds) [])
    [VAt true r; VComp 0 (SetData d'); VAt true r; VAt false r]) =
    [Some (Ok [11; 21]%Z); None; Some (Ok [11; 21]%Z); Some (Ok [100; 21]%Z)].
Proof. exists [10; 20]%Z, 99%Z, (vreq 1). vm_compute. reflexivity. Qed.
Print Assumptions c72_component_data_refuted.
Example c72_example :
  let ds := [10; 20]%Z in
  snd (vec_run vdemo (mkVec (map (fun d => mkAt d []) ds) [])
    [VAt true (vreq 1); VComp 1 (Call (vreq 2)); VAt true (vreq 2); VAt true (vreq (-1)); VAt true (vreq 1)]) =
  [Some (Ok [11; 21]%Z); None; Some (Ok [12; 22]%Z); Some (Err OutOfTimeRangeError); Some (Ok [11; 21]%Z)] /\
  Forall (fun op => match op with
                    | VAt _ r | VComp _ (Call r) => uniform 2 0 r
                    | VComp _ (SetData _) => False
                    end) [VAt true (vreq 1); VComp 1 (Call (vreq 2)); VAt (D := Z) true (vreq 2); VAt true (vreq (-1)); VAt true (vreq 1)].
Proof. split; [vm_compute; reflexivity|]. repeat constructor. Qed.

(** Separate longitudes and latitudes: as many points as coordinates, in order;
    anything else missing is a ValueError; given points win. *)
Theorem c72_points :
  forall points lons lats,
  match vec_points points lons lats with
  | Ok ps =>
      points = Some ps \/
      (points = None /\ exists xs ys, lons = Some xs /\ lats = Some ys /\ length xs = length ys /\
        length ps = length xs /\
        forall i x y, nth_error xs i = Some x -> nth_error ys i = Some y -> nth_error ps i = Some [x; y])
  | Err e => e = ValueError /\ points = None /\
      (lons = None \/ lats = None \/ exists xs ys, lons = Some xs /\ lats = Some ys /\ length xs <> length ys)
  end.
Proof.
  intros [p|] lons lats; cbn [vec_points]; auto.
  destruct lons as [xs|]; [|auto]. destruct lats as [ys|]; [|auto].
  destruct (Nat.eqb_spec (length xs) (length ys)) as [E|E].
  - right. split; auto. exists xs, ys. repeat split; auto.
    + rewrite map_length, combine_length. lia.
    + clear E. revert ys. induction xs as [|a xs IH]; intros [|b ys] [|i] x y Hx Hy; cbn in *; try discriminate; auto.
      congruence.
  - repeat split; auto. right. right. exists xs, ys. auto.
Qed.
Print Assumptions c72_points.

(** ** C73: what callers can do to cached answers *)
(** A vector copies when it stores and when it answers: whatever a caller
    writes into the arrays it was given, every later answer is what was
    computed. *)
Theorem c73_vector_answers_safe :
  forall comp keyf, (forall a b : nat, keyf a = keyf b -> a = b) ->
  forall cap ops, Forall2 (SeesComputed comp) ops (h_run comp keyf true cap h_empty ops).
Proof.
  intros comp keyf Hk cap ops. apply h_run_sees; auto.
  - apply h_empty_ok. - discriminate.
Qed.
Print Assumptions c73_vector_answers_safe.
(** A single variable hands out the cached array itself, read-only: writing
    numbers is refused and later answers are safe.  Missing: masking. *)
Theorem c73_variable_numbers_partial :
  forall comp keyf, (forall a b : nat, keyf a = keyf b -> a = b) ->
  forall cap ops, Forall NumberWrites ops ->
  Forall2 (SeesComputed comp) ops (h_run comp keyf false cap h_empty ops).
Proof.
  intros comp keyf Hk cap ops Hn. apply h_run_sees; auto. apply h_empty_ok.
Qed.
Print Assumptions c73_variable_numbers_partial.
(** Masking an entry of the answer ([res[0] = np.ma.masked]) gets past the
    read-only flag and changes every later answer. *)
Theorem c73_variable_mask_refuted :
  exists comp r, (exists vs, comp r = Ok (vs, true)) /\
  let rs := h_run comp (fun r => r) false var_memo_cap h_empty [HCall r; HSet 0 0 9; HMask 0 0; HCall r] in
  nth_error rs 0 = Some (Some (Ok [(5%Q, false)])) /\
  nth_error rs 1 = Some (Some (Err ValueError)) /\
  nth_error rs 3 = Some (Some (Ok [(5%Q, true)])).
Proof.
  exists (fun _ => Ok ([(5%Q, false)], true)), 0. split; [eauto|]. vm_compute. auto.
Qed.
Print Assumptions c73_variable_mask_refuted.
Example c73_example :
  let comp r := if Nat.eqb r 3 then Err OutOfTimeRangeError else Ok ([(inject_Z (Z.of_nat r), false)], true) in
  h_run comp (fun r => r) true vector_memo_cap h_empty [HCall 1; HSet 0 0 9; HMask 0 0; HCall 1; HSet 1 0 7; HCall 3; HCall 1]
  = [Some (Ok [(1%Q, false)]); None; None; Some (Ok [(1%Q, false)]); None; Some (Err OutOfTimeRangeError); Some (Ok [(1%Q, false)])].
Proof. vm_compute. reflexivity. Qed.

(** ** C74: components, time and units of a vector *)
(** A vector is made of two or more variables (as many as named components);
    its time and units are the given ones, else those of the first variable. *)
Theorem c74_init :
  forall ncomp vs t u v, vec_init ncomp (Some vs) t u = Ok v ->
  2 <= length vs /\ ncomp <= length vs /\ vv_comps v = vs /\
  exists c, hd_error vs = Some c /\
  (vv_units v = match u with UNone => cp_units c | _ => u end) /\
  match t with
  | TNone => vv_time v = vs_time (cp_state c)
  | TObj o => vv_time v = Some o
  | TList l => exists o, vv_time v = Some o /\ t_data o = l
  end.
Proof.
  intros ncomp vs t u v H. unfold vec_init in H. apply bind_ok in H. destruct H as (t1 & Ht & H).
  destruct vs as [|c vs]; [destruct u, t1; discriminate|].
  destruct (Nat.ltb_spec (length (c :: vs)) 2); [discriminate|].
  destruct (Nat.ltb_spec (length (c :: vs)) ncomp); [discriminate|].
  injection H as <-. cbn [vv_comps vv_units vv_time]. repeat split; auto.
  exists c. repeat split; auto.
  destruct t as [|o|l].
  - injection Ht as <-. reflexivity.
  - injection Ht as <-. reflexivity.
  - apply bind_ok in Ht. destruct Ht as (o & Ho & E). injection E as <-.
    exists o. split; auto. eapply time_init_plain; eauto.
Qed.
Print Assumptions c74_init.
(** Two or more variables are accepted, with a Time object or no time. *)
Theorem c74_init_accepts :
  forall ncomp vs t u, 2 <= length vs -> ncomp <= length vs -> match t with TList _ => False | _ => True end ->
  exists v, vec_init ncomp (Some vs) t u = Ok v.
Proof.
  intros ncomp vs t u H1 H2 Ht. unfold vec_init.
  destruct vs as [|c vs]; [cbn in H1; lia|].
  assert (E : Nat.ltb (length (c :: vs)) 2 = false) by (apply Nat.ltb_ge; auto).
  assert (E' : Nat.ltb (length (c :: vs)) ncomp = false) by (apply Nat.ltb_ge; auto).
  destruct t as [|o|l]; [| |tauto]; cbn [bind]; rewrite E, E'; eauto.
Qed.
Print Assumptions c74_init_accepts.
(** One variable is refused as documented. *)
Theorem c74_one_variable :
  forall ncomp c t u, match t with TList _ => False | _ => True end ->
  vec_init ncomp (Some [c]) t u = Err ValueError.
Proof. intros ncomp c [|o|l] u H; [reflexivity|reflexivity|tauto]. Qed.
Print Assumptions c74_one_variable.
(** Without variables the documented ValueError is not what is raised: the
    list is used before it is checked. *)
Theorem c74_no_variables_refuted :
  (forall ncomp t u, vec_init ncomp None t u = Err TypeError) /\
  (forall ncomp u, vec_init ncomp (Some []) TNone u = Err IndexError).
Proof. split; [reflexivity|]. intros ncomp [| |]; reflexivity. Qed.
Print Assumptions c74_no_variables_refuted.

(** Assigning a Time object that fits every component gives it to the vector
    and to all components, and changes nothing else. *)
Theorem c74_set_time :
  forall v o, Forall (Fits o) (vv_comps v) ->
  exists v', vec_set_time v (TObj o) = (v', None) /\ vv_time v' = Some o /\ SameTime v' /\
    vv_units v' = vv_units v /\
    Forall2 (fun c c' => vs_shape (cp_state c') = vs_shape (cp_state c) /\ cp_units c' = cp_units c)
            (vv_comps v) (vv_comps v').
Proof.
  intros v o H. unfold vec_set_time.
  destruct (comps_set_time_ok (vv_comps v) o H) as (cs' & E & F). rewrite E.
  eexists. split; [reflexivity|]. cbn [vv_time vv_units vv_comps]. repeat split; auto.
  - unfold SameTime. cbn [vv_time vv_comps]. clear - F. induction F as [|c c' cs cs' (A & _) _ IH]; constructor; auto.
  - clear - F. induction F as [|c c' cs cs' (_ & A) _ IH]; constructor; auto.
Qed.
Print Assumptions c74_set_time.
(** One that does not fit is refused with ValueError, and the vector's own time
    stays.  Missing: the components before the refusing one keep the new
    time. *)
Theorem c74_set_time_refused_partial :
  forall v o cs c cs2 d r, vv_comps v = cs ++ c :: cs2 -> Forall (Fits o) cs ->
  vs_shape (cp_state c) = d :: r -> length (t_data o) <> d -> 1 < length (t_data o) ->
  exists cs', vec_set_time v (TObj o) = (mkVV (vv_time v) (vv_units v) (cs' ++ c :: cs2), Some ValueError) /\
    Forall (fun c' => vs_time (cp_state c') = Some o) cs' /\ length cs' = length cs.
Proof.
  intros v o cs c cs2 d r E Hf Es Hn H1. unfold vec_set_time. rewrite E.
  destruct (comps_set_time_app cs c cs2 o d r Hf Es Hn H1) as (cs' & E' & F). rewrite E'.
  exists cs'. split; [reflexivity|]. split.
  - clear - F. induction F as [|x y xs ys (A & _) _ IH]; constructor; auto.
  - clear - F. induction F; cbn; auto.
Qed.
Print Assumptions c74_set_time_refused_partial.
Definition vcomp_of (n : nat) (t : list Z) (u : uval) : vcomp := mkComp (mkVS [n; 4] (Some (mkTime t None None)) None) u.
Theorem c74_set_time_not_atomic_refuted :
  exists v o v', SameTime v /\ vec_set_time v (TObj o) = (v', Some ValueError) /\
    vv_time v' = vv_time v /\ ~ SameTime v'.
Proof.
  pose (t := mkTime [0%Z] None None).
  exists (mkVV (Some t) UNone [vcomp_of 2 [0%Z] UNone; vcomp_of 3 [0%Z] UNone]), (mkTime [5; 6]%Z None None).
  eexists. split; [repeat constructor|]. split; [vm_compute; reflexivity|]. split; [reflexivity|].
  intros H. inversion H as [|? ? A _]. vm_compute in A. discriminate.
Qed.
Print Assumptions c74_set_time_not_atomic_refuted.
(** Everything but a Time object ends in AttributeError, although a sequence is
    documented; the components have been changed by then. *)
Theorem c74_set_time_list_refuted :
  (forall v t, match t with TObj _ => False | _ => True end -> snd (vec_set_time v t) <> None) /\
  exists v l v', SameTime v /\ vec_set_time v (TList l) = (v', Some AttributeError) /\ vv_time v' = vv_time v /\ ~ SameTime v'.
Proof.
  split.
  - intros v t Ht. unfold vec_set_time. destruct (comps_set_time (vv_comps v) t) as [cs [e|]]; cbn; [discriminate|].
    destruct t; [discriminate|tauto|discriminate].
  - exists (mkVV (Some (mkTime [0%Z] None None)) UNone [vcomp_of 2 [0%Z] UNone; vcomp_of 2 [0%Z] UNone]), [5; 6]%Z.
    eexists. split; [repeat constructor|]. split; [vm_compute; reflexivity|]. split; [reflexivity|].
    intros H. inversion H as [|? ? A _]. vm_compute in A. discriminate.
Qed.
Print Assumptions c74_set_time_list_refuted.
(** A time given to the constructor is not given to the components, which
    are the ones that interpolate. *)
Theorem c74_init_time_refuted :
  exists ncomp vs o v, vec_init ncomp (Some vs) (TObj o) UNone = Ok v /\ ~ SameTime v.
Proof.
  exists 0, [vcomp_of 2 [0; 1]%Z UNone; vcomp_of 2 [0; 1]%Z UNone], (mkTime [5; 6]%Z None None).
  eexists. split; [vm_compute; reflexivity|].
  intros H. inversion H as [|? ? A _]. vm_compute in A. discriminate.
Qed.
Print Assumptions c74_init_time_refuted.

(** Units: what is read back. *)
Theorem c74_units_get :
  forall u, match u with
  | UNone => units_get u = Ok UNone
  | UStr s => (TwoDifferent (chars s) -> units_get u = Ok u) /\
              (s = EmptyString -> units_get u = Err IndexError)
  | UList l => (TwoDifferent l -> units_get u = Ok u) /\
               (forall x, l <> [] -> (forall y, In y l -> y = Some x) -> units_get u = Ok (UStr x)) /\
               (l <> [] -> (forall y, In y l -> y = None) -> units_get u = Ok UNone) /\
               (l = [] -> units_get u = Err IndexError)
  end.
Proof.
  intros [|s|l]; [reflexivity| |].
  - split; [|intros ->; reflexivity]. intros H. cbn [units_get].
    apply (several_false Ascii.eqb Ascii.eqb_eq) in H. rewrite H. reflexivity.
  - assert (K : forall x, (forall y, In y l -> y = x) -> several opt_str_eqb l = false).
    { intros x H. apply not_true_is_false. intros E.
      apply (several_false opt_str_eqb opt_str_eqb_iff) in E. destruct E as (a & b & Ha & Hb & Hne).
      apply Hne. rewrite (H a Ha), (H b Hb). reflexivity. }
    repeat split.
    + intros H. cbn [units_get]. apply (several_false opt_str_eqb opt_str_eqb_iff) in H. rewrite H. reflexivity.
    + intros x Hl H. cbn [units_get]. rewrite (K (Some x) H). destruct l as [|y l]; [congruence|].
      rewrite (H y (or_introl eq_refl)). reflexivity.
    + intros Hl H. cbn [units_get]. rewrite (K None H). destruct l as [|y l]; [congruence|].
      rewrite (H y (or_introl eq_refl)). reflexivity.
    + intros ->. reflexivity.
Qed.
Print Assumptions c74_units_get.
(** Assigned units reach every component and leave times alone. *)
Theorem c74_units_set :
  forall v u, vv_units (units_set v u) = u /\ SameUnits (units_set v u) /\
  vv_time (units_set v u) = vv_time v /\ map cp_state (vv_comps (units_set v u)) = map cp_state (vv_comps v).
Proof.
  intros v u. unfold units_set, SameUnits. cbn [vv_units vv_time vv_comps]. repeat split.
  - apply Forall_forall. intros c Hc. apply in_map_iff in Hc. destruct Hc as (x & <- & _). reflexivity.
  - rewrite map_map. cbn. reflexivity.
Qed.
Print Assumptions c74_units_set.
(** A unit written with one repeated character is cut: metres become "m" from
    "mm" (millimetres). *)
Theorem c74_units_refuted :
  exists v, vv_units v = UStr "mm" /\ SameUnits v /\ units_get (vv_units v) = Ok (UStr "m").
Proof.
  exists (units_set (mkVV None UNone [vcomp_of 2 [] UNone; vcomp_of 2 [] UNone]) (UStr "mm")).
  split; [reflexivity|]. split; [repeat constructor|reflexivity].
Qed.
Print Assumptions c74_units_refuted.

(** Saving a vector accepts the two formats and refuses the others (and writes
    nothing: there is nothing else in the function). *)
Theorem c74_save_format :
  forall f, vec_save f = Ok tt <-> f = "netcdf3"%string \/ f = "netcdf4"%string.
Proof.
  intros f. unfold vec_save. destruct (existsb _ _) eqn:E.
  - split; auto. intros _. apply existsb_exists in E. destruct E as (x & Hx & Ex).
    apply String.eqb_eq in Ex. subst x. destruct Hx as [<-|[<-|[]]]; auto.
  - split; [discriminate|]. intros H. exfalso. apply not_true_iff_false in E. apply E.
    apply existsb_exists. exists f. split; [|apply String.eqb_refl]. cbn. destruct H; auto.
Qed.
Print Assumptions c74_save_format.
Example c74_example :
  let c u := vcomp_of 2 [0; 1]%Z (UStr u) in
  (exists v, vec_init 0 (Some [c "m/s"; c "knots"]%string) TNone UNone = Ok v /\
     units_get (vv_units v) = Ok (UStr "m/s") /\ SameTime v /\
     Forall (Fits (mkTime [3; 4]%Z None None)) (vv_comps v)) /\
  units_get (UList [Some "m"; Some "m"]%string) = Ok (UStr "m").
Proof.
  split; [|reflexivity]. eexists. split; [vm_compute; reflexivity|]. split; [reflexivity|].
  split; [repeat constructor|]. repeat constructor; exists 2, [4]; cbn; auto.
Qed.
