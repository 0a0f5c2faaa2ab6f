(** Theorems about time axes read from files (C75, C76). *)
From Coq Require Import String Ascii.
From Verif Require Import Common CommonProofs TimeModel TimeSpec TimeProofs IsoModel IsoSpec IsoProofs GridTypeModel GridTypeSpec
  GridTypeProofs TFileModel TFileSpec TFileProofs.
Open Scope string_scope.
Open Scope list_scope.
Open Scope Z_scope.

(** ** C75: instants *)
(** The text that is searched for an offset is what follows "since". *)
Theorem c75_since :
  (forall a b, ~ Mentions "since" (a ++ "sinc") -> ~ Mentions "since" b ->
     since_part (a ++ "since" ++ b) = Ok b) /\
  (forall a b c, ~ Mentions "since" (a ++ "sinc") -> ~ Mentions "since" (b ++ "sinc") ->
     since_part (a ++ "since" ++ b ++ "since" ++ c) = Ok b) /\
  (forall u, ~ Mentions "since" u -> since_part u = Err IndexError).
Proof.
  split; [|split].
  - intros a b Ha Hb. unfold since_part. rewrite (cut_first a b Ha). apply cut_none in Hb. rewrite Hb. reflexivity.
  - intros a b c Ha Hb. unfold since_part. rewrite (cut_first a _ Ha), (cut_first b _ Hb). reflexivity.
  - intros u H. unfold since_part. apply cut_none in H. rewrite H. reflexivity.
Qed.
Print Assumptions c75_since.

(** The data of the axis, for every choice of arguments: the instants in UTC
    moved as requested; accepted exactly when they increase. *)
Theorem c75_axis :
  forall dateutil cftime v tz new_tz tz_name origin disp l p,
  FileInstants cftime v l -> tz_of dateutil v tz = Ok p ->
  (origin <> None -> l <> []) -> (new_tz <> None -> fst p <> None) ->
  (StrictlyIncreasing l ->
   exists t, read_axis dateutil cftime v tz new_tz tz_name origin disp =
               Ok (Axis t (match tz_name with Some n => n | None => snd p end)) /\
     MovedBy (requested_move l (fst p) new_tz origin disp) l (t_data t) /\
     t_tz t = (match new_tz with Some n => Some n | None => fst p end) /\ t_disp t = disp) /\
  (~ StrictlyIncreasing l ->
   read_axis dateutil cftime v tz new_tz tz_name origin disp = Err TimeSeriesError).
Proof.
  intros dateutil cftime v tz new_tz tz_name origin disp l p (u & step & base & off & Hu & Hc & Hl) Hp Ho Hn.
  assert (E : num2date cftime u (tv_vals v) = Ok l).
  { unfold num2date. rewrite Hc. f_equal. clear - Hl. induction Hl as [|x i xs is E _ IH]; cbn; auto.
    f_equal; [lia|exact IH]. }
  destruct (time_init_accept l (fst p) new_tz origin disp Ho Hn) as [A B].
  unfold read_axis. rewrite Hp. cbn [bind]. rewrite Hu, E. cbn [bind]. split; intros H.
  - destruct (A H) as (t & Et & R). rewrite Et. cbn [bind]. exists t. split; auto.
  - rewrite (B H). reflexivity.
Qed.
Print Assumptions c75_axis.

Lemma same_offset_tz dateutil cftime v off : SameOffset dateutil cftime v off ->
  exists n, tz_of dateutil v TzNone = Ok (Some off, n).
Proof.
  intros (u & t & step & base & Hu & Ht & Hc & Hd). unfold tz_of, parse_time_offset. rewrite Hu, Ht. cbn [bind].
  destruct Hd as [(n & ->)|(-> & [->| ->])]; cbn; eauto. destruct n; cbn; eauto.
Qed.
(** What the axis denotes when no arguments are given, for any offset in the
    units: every instant is off by exactly that offset, because num2date has
    already removed it.  (A new_tz_offset changes nothing of it.) *)
Theorem c75_instants_off_by :
  forall dateutil cftime v new_tz tz_name l off,
  FileInstants cftime v l -> SameOffset dateutil cftime v off -> StrictlyIncreasing l ->
  exists t n, read_axis dateutil cftime v TzNone new_tz tz_name None None = Ok (Axis t n) /\
    Denotes t (map (fun i => i - off) l).
Proof.
  intros dateutil cftime v new_tz tz_name l off Hl Hs Hi.
  destruct (same_offset_tz _ _ _ _ Hs) as [n Hp].
  destruct (c75_axis dateutil cftime v TzNone new_tz tz_name None None l (Some off, n) Hl Hp) as [A _];
    [congruence|discriminate|].
  destruct (A Hi) as (t & Et & Hm & Htz & _). exists t. eexists. split; [exact Et|].
  apply moved_map in Hm. cbn [fst] in Hm, Htz.
  destruct new_tz as [m|]; [exists m|exists off]; (split; [exact Htz|]); (eapply moved_by_off; [exact Hm|unfold requested_move; cbn; lia]).
Qed.
Print Assumptions c75_instants_off_by.
(** So the axis denotes the file's instants when the units are in UTC (or say
    nothing).  Missing: units with an offset. *)
Theorem c75_instants_partial :
  forall dateutil cftime v new_tz tz_name l,
  FileInstants cftime v l -> SameOffset dateutil cftime v 0 -> StrictlyIncreasing l ->
  exists t n, read_axis dateutil cftime v TzNone new_tz tz_name None None = Ok (Axis t n) /\ Denotes t l.
Proof.
  intros dateutil cftime v new_tz tz_name l Hl Hs Hi.
  destruct (c75_instants_off_by dateutil cftime v new_tz tz_name l 0 Hl Hs Hi) as (t & n & E & H).
  exists t, n. split; auto. rewrite <- (map_id l). erewrite map_ext; [exact H|]. intros i. cbn. lia.
Qed.
Print Assumptions c75_instants_partial.

Definition hour : Z := 3600000000.
Definition demo_dateutil (s : string) : dparse :=
  if String.eqb s " 2024-01-01T00:00:00-7:00" then DOffset (-7 * hour) None
  else if String.eqb s " 2024-01-01T00:00:00Z" then DOffset 0 (Some "UTC")
  else if String.eqb s " 2024-01-01T00:00:00" then DNaive else DFail.
Definition demo_cftime (u : string) : option (Z * Z * Z) :=
  if String.eqb u "hours since 2024-01-01T00:00:00-7:00" then Some (hour, 0, -7 * hour)
  else if String.prefix "hours since 2024-01-01T00:00:00" u then Some (hour, 0, 0) else None.
(** Units "hours since 2024-01-01T00:00:00-7:00": value 0 is 07:00 UTC.  The
    object has clock reading 07:00 and offset -7, that is 14:00 UTC. *)
Theorem c75_instants_refuted :
  exists dateutil cftime v l off, FileInstants cftime v l /\ SameOffset dateutil cftime v off /\ StrictlyIncreasing l /\
  exists t n, read_axis dateutil cftime v TzNone None None None None = Ok (Axis t n) /\ ~ Denotes t l.
Proof.
  exists demo_dateutil, demo_cftime, (mkTvar ["time"] None (Some "hours since 2024-01-01T00:00:00-7:00") [0; 1]),
    [7 * hour; 8 * hour], (-7 * hour).
  split; [exists "hours since 2024-01-01T00:00:00-7:00", hour, 0, (-7 * hour); repeat split; repeat constructor|].
  split; [exists "hours since 2024-01-01T00:00:00-7:00", " 2024-01-01T00:00:00-7:00", hour, 0; repeat split; left; exists None; reflexivity|].
  split.
  { intros [|[|i]] [|[|j]] x y H; cbn; intros; try lia; try discriminate.
    - injection H0 as <-. injection H1 as <-. unfold hour. lia.
    - destruct j; discriminate.
    - destruct j; discriminate.
    - destruct i; discriminate. }
  eexists _, _. split; [vm_compute; reflexivity|].
  intros (off & E & H). cbn in E. injection E as <-. inversion H as [|? ? ? ? K _]. vm_compute in K. discriminate.
Qed.
Print Assumptions c75_instants_refuted.
(** A given offset is taken as that of the clock readings. *)
Theorem c75_given_offset :
  forall dateutil cftime v h new_tz tz_name l,
  FileInstants cftime v l -> StrictlyIncreasing l ->
  exists t n, read_axis dateutil cftime v (TzOff h) new_tz tz_name None None = Ok (Axis t n) /\
    Denotes t (map (fun i => i - h) l) /\ t_tz t = Some (match new_tz with Some m => m | None => h end) /\
    (tz_name = None -> n = iso_of h).
Proof.
  intros dateutil cftime v h new_tz tz_name l Hl Hi.
  destruct (c75_axis dateutil cftime v (TzOff h) new_tz tz_name None None l (Some h, iso_of h) Hl eq_refl) as [A _];
    [congruence|discriminate|].
  destruct (A Hi) as (t & Et & Hm & Htz & _). exists t. eexists. split; [exact Et|].
  apply moved_map in Hm. cbn [fst snd] in *. split; [|split].
  - destruct new_tz as [m|]; [exists m|exists h]; (split; [exact Htz|]); (eapply moved_by_off; [exact Hm|unfold requested_move; cbn; lia]).
  - destruct new_tz; exact Htz.
  - intros ->. reflexivity.
Qed.
Print Assumptions c75_given_offset.
(** "naive" in any case: no offset, clock readings in UTC, and no change of
    offset possible; any other text is a TypeError. *)
Theorem c75_naive :
  forall dateutil cftime v s new_tz tz_name l, FileInstants cftime v l -> StrictlyIncreasing l ->
  (lower s = "naive" ->
    (new_tz = None -> exists t, read_axis dateutil cftime v (TzText s) new_tz tz_name None None =
        Ok (Axis t (match tz_name with Some n => n | None => "No Timezone Specified" end)) /\ t_tz t = None /\ t_data t = l) /\
    (new_tz <> None -> read_axis dateutil cftime v (TzText s) new_tz tz_name None None = Err ValueError)) /\
  (lower s <> "naive" -> read_axis dateutil cftime v (TzText s) new_tz tz_name None None = Err TypeError).
Proof.
  intros dateutil cftime v s new_tz tz_name l Hl Hi. split.
  - intros Hs. assert (Hp : tz_of dateutil v (TzText s) = Ok (None, "No Timezone Specified")).
    { cbn. rewrite Hs. reflexivity. }
    split.
    + intros ->. destruct (c75_axis dateutil cftime v (TzText s) None tz_name None None l _ Hl Hp) as [A _]; try congruence.
      destruct (A Hi) as (t & Et & Hm & Htz & _). exists t. split; [exact Et|]. split; [exact Htz|].
      apply moved_map in Hm. eapply moved_none; [exact Hm|reflexivity].
    + intros Hn. destruct Hl as (u & step & base & off & Hu & Hc & _). unfold read_axis. rewrite Hp. cbn [bind].
      rewrite Hu. unfold num2date. rewrite Hc. cbn [bind fst].
      rewrite (proj2 (time_init_bad_args _ None new_tz None None)); auto.
  - intros Hs. unfold read_axis, tz_of. destruct (String.eqb_spec (lower s) "naive"); [contradiction|]. reflexivity.
Qed.
Print Assumptions c75_naive.
(** The name of the offset: the given one; else the one in the units, the ISO
    text of the offset if it has no name, and "UTC" if there is no offset. *)
Theorem c75_names :
  forall dateutil v u t, tv_units v = Some u -> since_part u = Ok t ->
  tz_of dateutil v TzNone =
  Ok (match dateutil t with
      | DOffset off (Some n) => (Some off, n)
      | DOffset off None => (Some off, iso_of off)
      | _ => (Some 0, "UTC")
      end).
Proof.
  intros dateutil v u t Hu Ht. unfold tz_of, parse_time_offset. rewrite Hu, Ht. cbn [bind].
  destruct (dateutil t) as [| |off [n|]]; reflexivity.
Qed.
Print Assumptions c75_names.
(** The ISO text of a whole number of minutes reads back as that number (exact
    arithmetic; for floats see C09). *)
Theorem c75_iso_name_partial : forall m, read_offset (iso_of (m * 60000000)) = Some m.
Proof.
  intros m. unfold iso_of. apply iso_round_trip. unfold Qeq, inject_Z, Qdiv, Qmult, Qinv. cbn. lia.
Qed.
Print Assumptions c75_iso_name_partial.
(** Errors. *)
Theorem c75_errors :
  forall dateutil cftime v tz new_tz tz_name origin disp,
  (tv_units v = None -> (forall s, tz <> TzText s) ->
     read_axis dateutil cftime v tz new_tz tz_name origin disp = Err AttributeError) /\
  (forall u, tv_units v = Some u -> ~ Mentions "since" u ->
     read_axis dateutil cftime v TzNone new_tz tz_name origin disp = Err IndexError) /\
  (forall u h, tv_units v = Some u -> cftime u = None ->
     read_axis dateutil cftime v (TzOff h) new_tz tz_name origin disp = Err ValueError).
Proof.
  intros dateutil cftime v tz new_tz tz_name origin disp. repeat split.
  - intros Hu Ht. destruct tz as [|s|h]; unfold read_axis; cbn; rewrite ?Hu; auto. exfalso. eapply Ht; eauto.
  - intros u Hu Hm. unfold read_axis. cbn. rewrite Hu. unfold parse_time_offset.
    rewrite (proj2 (proj2 c75_since) u Hm). reflexivity.
  - intros u h Hu Hc. unfold read_axis. cbn. rewrite Hu. unfold num2date. rewrite Hc. reflexivity.
Qed.
Print Assumptions c75_errors.
Example c75_example :
  let v u := mkTvar ["time"] None (Some u) [0; 1; 3] in
  read_axis demo_dateutil demo_cftime (v "hours since 2024-01-01T00:00:00Z") TzNone (Some (-3 * hour)) None None None
  = Ok (Axis (mkTime [-3 * hour; -2 * hour; 0] (Some (-3 * hour)) None) "UTC") /\
  SameOffset demo_dateutil demo_cftime (v "hours since 2024-01-01T00:00:00Z") 0 /\
  read_axis demo_dateutil demo_cftime (v "hours since 2024-01-01T00:00:00-7:00") (TzText "Naive") None None None None
  = Ok (Axis (mkTime [7 * hour; 8 * hour; 10 * hour] None None) "No Timezone Specified") /\
  tz_of demo_dateutil (v "hours since 2024-01-01T00:00:00-7:00") TzNone = Ok (Some (-7 * hour), "-07:00").
Proof.
  cbv zeta. split; [vm_compute; reflexivity|]. split; [|split; vm_compute; reflexivity].
  exists "hours since 2024-01-01T00:00:00Z", " 2024-01-01T00:00:00Z", hour, 0.
  split; [reflexivity|]. split; [reflexivity|]. split; [reflexivity|]. left. exists (Some "UTC"). reflexivity.
Qed.

(** ** C76: finding the time axis of a variable *)
(** A [time] attribute naming a dimension of the file wins; otherwise the first
    dimension if its name contains "time"; otherwise there is none.  A variable
    without dimensions (and such an attribute) is an IndexError. *)
Theorem c76_locate :
  forall f v,
  match locate_time f v with
  | Ok (Some n) => (tv_time v = Some n /\ In n (tf_dims f)) \/
      ((forall t, tv_time v = Some t -> ~ In t (tf_dims f)) /\ (exists r, tv_dims v = n :: r) /\ Mentions "time" n)
  | Ok None => (forall t, tv_time v = Some t -> ~ In t (tf_dims f)) /\
      exists d r, tv_dims v = d :: r /\ ~ Mentions "time" d
  | Err e => e = IndexError /\ tv_dims v = [] /\ (forall t, tv_time v = Some t -> ~ In t (tf_dims f))
  end.
Proof.
  intros f v. unfold locate_time.
  assert (K : (forall t, tv_time v = Some t -> ~ In t (tf_dims f)) ->
    match match tv_dims v with
          | [] => Err IndexError
          | d :: _ => Ok (if contains "time" d then Some d else None)
          end with
    | Ok (Some n) => (tv_time v = Some n /\ In n (tf_dims f)) \/
        ((forall t, tv_time v = Some t -> ~ In t (tf_dims f)) /\ (exists r, tv_dims v = n :: r) /\ Mentions "time" n)
    | Ok None => (forall t, tv_time v = Some t -> ~ In t (tf_dims f)) /\
        exists d r, tv_dims v = d :: r /\ ~ Mentions "time" d
    | Err e => e = IndexError /\ tv_dims v = [] /\ (forall t, tv_time v = Some t -> ~ In t (tf_dims f))
    end).
  { intros H. destruct (tv_dims v) as [|d r]; [auto|]. destruct (contains "time" d) eqn:E.
    - right. apply contains_spec in E. split; [auto|]. split; [eauto|auto].
    - split; auto. exists d, r. split; auto. intros M. apply contains_spec in M. congruence. }
  destruct (tv_time v) as [t|] eqn:Et.
  - destruct (isin t (tf_dims f)) eqn:Ei.
    + left. apply isin_in in Ei. auto.
    + apply K. intros t' E. injection E as <-. intros H. apply isin_in in H. congruence.
  - apply K. intros t E. discriminate.
Qed.
Print Assumptions c76_locate.
(** By variable: the axis is the one read by the name found, the constant time
    if there is none. *)
Theorem c76_by_variable :
  forall dateutil cftime f v tz new_tz tz_name origin disp,
  let read n dv := time_from_netCDF dateutil cftime f n dv tz new_tz tz_name origin disp in
  (forall n, locate_time f v = Ok (Some n) -> read None (DVVar v) = read (Some n) DVNone) /\
  (locate_time f v = Ok None -> read None (DVVar v) = Ok Constant) /\
  (forall e, locate_time f v = Err e -> read None (DVVar v) = Err e) /\
  (forall k, dget (tf_vars f) k = Some v -> read None (DVName k) = read None (DVVar v)) /\
  (forall k, dget (tf_vars f) k = None -> read None (DVName k) = Err KeyError /\ read (Some k) DVNone = Err KeyError) /\
  read None DVNone = Err TypeError /\
  (forall n dv, read (Some n) dv = read (Some n) DVNone).
Proof.
  intros dateutil cftime f v tz new_tz tz_name origin disp read. unfold read, time_from_netCDF.
  repeat split; auto.
  - intros n E. rewrite E. reflexivity.
  - intros E. rewrite E. reflexivity.
  - intros e E. rewrite E. reflexivity.
  - intros k E. rewrite E. reflexivity.
  - rewrite H. reflexivity.
  - cbn [bind]. rewrite H. reflexivity.
Qed.
Print Assumptions c76_by_variable.
(** The constant time is one object for the whole program: what one user does
    to it is seen by all others. *)
Theorem c76_constant_shared_refuted :
  exists now later d, const_run [CGet now; CGet later] = const_run [CGet now] /\
    const_run [CGet now; CDisp (Some d); CGet later] <> const_run [CGet now; CGet later].
Proof. exists 5, 9, 100. split; [reflexivity|vm_compute; discriminate]. Qed.
Print Assumptions c76_constant_shared_refuted.
(** It always has exactly one time, and without changes it is that of the first
    call. *)
Theorem c76_constant_single :
  forall ops t, const_run ops = Some t -> exists x, t_data t = [x].
Proof.
  intros ops. unfold const_run.
  assert (K : forall ops s, (forall t, s = Some t -> exists x, t_data t = [x]) ->
              forall t, fold_left const_step ops s = Some t -> exists x, t_data t = [x]).
  { clear. induction ops as [|o ops IH]; cbn [fold_left]; intros s Hs; auto. apply IH.
    intros t Ht. destruct o as [now|off|d], s as [t0|]; cbn in Ht; try discriminate; injection Ht as <-.
    - eauto.
    - cbn. eauto.
    - destruct (Hs t0 eq_refl) as [x E]. unfold set_tz. destruct (t_tz t0), off; cbn; rewrite ?E; cbn; eauto.
    - destruct (Hs t0 eq_refl) as [x E]. unfold set_disp. destruct (t_disp t0); cbn; [eauto|].
      destruct d; cbn; rewrite ?E; cbn; eauto. }
  apply K. discriminate.
Qed.
Print Assumptions c76_constant_single.
Theorem c76_constant_first :
  forall now rest, Forall (fun o => match o with CGet _ => True | _ => False end) rest ->
  const_run (CGet now :: rest) = Some (mkTime [now] None None).
Proof.
  intros now rest H. unfold const_run. cbn [fold_left const_step].
  induction H as [|o r Ho Hr IH]; cbn [fold_left]; auto. destruct o; try contradiction. exact IH.
Qed.
Print Assumptions c76_constant_first.
Example c76_example :
  let f := mkTfile ["ocean_time"; "x"; "tt"] [("ocean_time", mkTvar ["ocean_time"] None (Some "hours since 2024-01-01T00:00:00") [1; 2])] in
  locate_time f (mkTvar ["ocean_time"; "x"] None None []) = Ok (Some "ocean_time") /\
  locate_time f (mkTvar ["x"; "ocean_time"] None None []) = Ok None /\
  locate_time f (mkTvar ["x"] (Some "tt") None []) = Ok (Some "tt") /\
  locate_time f (mkTvar [] None None []) = Err IndexError /\
  time_from_netCDF demo_dateutil demo_cftime f None (DVVar (mkTvar ["ocean_time"; "x"] None None [])) TzNone None None None None
  = Ok (Axis (mkTime [hour; 2 * hour] (Some 0) None) "UTC").
Proof. repeat split; vm_compute; reflexivity. Qed.
