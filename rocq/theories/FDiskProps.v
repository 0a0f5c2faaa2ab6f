(** C113: what saving does to the files. *)
From Coq Require Import String.
From Verif Require Import Common CommonProofs TimeModel GridTypeModel GridTypeProofs VariableModel DepthModel UGridGeomModel UGridGeomSpec UFileModel UFileSpec TFileModel TFileProps LoadModel DSaveModel DSaveSpec DSaveProofs DSaveProps
  WholeModel WholeSpec WholeProps FMeshModel FMeshProps FSaveModel FSaveSpec FSaveProps FDiskModel FDiskSpec.
Open Scope string_scope.
Open Scope list_scope.
Open Scope nat_scope.

Lemma format_iff f : isin f ["netcdf3"; "netcdf4"] = true <-> SomeFormat f.
Proof. rewrite isin_in. unfold SomeFormat. cbn. intuition. Qed.
Lemma put_same s n c : dk_file (put s n c) n = Some c.
Proof. cbn. now rewrite String.eqb_refl. Qed.
Lemma put_other s n c m : m <> n -> dk_file (put s n c) m = dk_file s m.
Proof. intros H. cbn. destruct (String.eqb_spec m n); [contradiction|reflexivity]. Qed.
Lemma save_twice d f : SomeFormat f -> save_dataset d "netcdf4" = save_dataset d f.
Proof. intros H. unfold save_dataset. apply format_iff in H. rewrite H. reflexivity. Qed.

(** A save that is refused changes nothing. *)
Theorem c113_refused : forall s o, Refused o -> save_step s o = (s, Err ValueError).
Proof.
  intros s o H. unfold save_step. destruct (isin (op_format o) ["netcdf3"; "netcdf4"]) eqn:E; [cbn [negb]|reflexivity]. apply format_iff in E.
  destruct H as [H|[-> |(n & ->)]]; [contradiction|reflexivity|reflexivity].
Qed.
Print Assumptions c113_refused.
Theorem c113_refused_or_goes : forall o, (Refused o /\ forall n, ~ GoesTo o n) \/ (~ Refused o /\ exists n, GoesTo o n /\ forall m, GoesTo o m -> m = n).
Proof.
  intros o. unfold Refused, GoesTo. destruct (isin (op_format o) ["netcdf3"; "netcdf4"]) eqn:E.
  - apply format_iff in E. destruct (op_target o) as [n|n|n|] eqn:T.
    + right. split; [intros [H|[H|(m & H)]]; [contradiction|discriminate|discriminate]|]. exists n. split; [auto|]. intros m [_ [H|H]]; congruence.
    + left. split; [eauto|]. intros m [_ [H|H]]; discriminate.
    + right. split; [intros [H|[H|(m & H)]]; [contradiction|discriminate|discriminate]|]. exists n. split; [auto|]. intros m [_ [H|H]]; congruence.
    + left. split; [auto|]. intros m [_ [H|H]]; discriminate.
  - assert (N : ~ SomeFormat (op_format o)) by (rewrite <- format_iff; congruence). left. split; [auto|]. intros n [H _]. contradiction.
Qed.
Print Assumptions c113_refused_or_goes.

(** What a save leaves in its file, and nowhere else. *)
Theorem c113_step : forall s o n, GoesTo o n ->
  (forall m, m <> n -> dk_file (fst (save_step s o)) m = dk_file s m) /\
  match op_data o with
  | OnMesh d =>
      (forall f, save_dataset d (op_format o) = Ok f -> snd (save_step s o) = Ok tt /\ dk_file (fst (save_step s o)) n = Some (Whole (dims_made (ds_grid d)) f) /\ ~ In n (dk_open (fst (save_step s o)))) /\
      (forall e, save_dataset d (op_format o) = Err e -> snd (save_step s o) = Err e /\ dk_file (fst (save_step s o)) n = Some Broken /\ dk_open (fst (save_step s o)) = dk_open s)
  | _ => snd (save_step s o) = Err AttributeError /\ dk_file (fst (save_step s o)) n = Some Broken /\ dk_open (fst (save_step s o)) = dk_open s
  end.
Proof.
  intros s o n [F T]. unfold save_step. pose proof F as F'. apply format_iff in F'. rewrite F'. cbn [negb].
  assert (W : exists s', writable s (op_target o) = Ok (n, s') /\ (forall m, m <> n -> dk_file s' m = dk_file s m) /\ dk_open s' = dk_open s).
  { destruct T as [-> | ->]; cbn [writable]; [exists (put s n Broken)|exists s]; repeat split. intros m H. now apply put_other. }
  destruct W as (s' & -> & O & D). destruct (op_data o) as [d| |].
  - rewrite (save_twice d (op_format o) F). destruct (save_dataset d (op_format o)) as [f|e] eqn:E; cbn [fst snd].
    + split; [intros m H; cbn [close dk_file]; rewrite put_other by assumption; now apply O|]. split; [|discriminate]. intros f' X. injection X as <-. split; [reflexivity|]. split; [apply put_same|].
      cbn [close dk_open put]. rewrite filter_In, String.eqb_refl. intros [_ X]. discriminate.
    + split; [intros m H; rewrite put_other by assumption; now apply O|]. split; [discriminate|]. intros e' X. injection X as <-. split; [reflexivity|]. split; [apply put_same|exact D].
  - cbn [fst snd]. split; [intros m H; rewrite put_other by assumption; now apply O|]. split; [reflexivity|]. split; [apply put_same|exact D].
  - cbn [fst snd]. split; [intros m H; rewrite put_other by assumption; now apply O|]. split; [reflexivity|]. split; [apply put_same|exact D].
Qed.
Print Assumptions c113_step.

(** After any number of saves a file holds what the last one that went there
    left; without one it is as it was. *)
Lemma frame_all os : forall s n, (forall o, In o os -> ~ GoesTo o n) -> dk_file (save_all_steps s os) n = dk_file s n.
Proof.
  induction os as [|o os IH]; intros s n H; [reflexivity|]. cbn [save_all_steps fold_left] in *. change (dk_file (save_all_steps (fst (save_step s o)) os) n = dk_file s n). rewrite IH by (intros; apply H; now right).
  destruct (c113_refused_or_goes o) as [[R _]|[_ (m & G & _)]]; [now rewrite c113_refused|]. destruct (c113_step s o m G) as [O _]. apply O. intros ->. exact (H o (or_introl eq_refl) G).
Qed.
Theorem c113_untouched : forall s os n, (forall o, In o os -> ~ GoesTo o n) -> dk_file (save_all_steps s os) n = dk_file s n.
Proof. intros. now apply frame_all. Qed.
Print Assumptions c113_untouched.
Theorem c113_last : forall s pre o post n d f, GoesTo o n -> (forall o', In o' post -> ~ GoesTo o' n) -> op_data o = OnMesh d -> save_dataset d (op_format o) = Ok f ->
  dk_file (save_all_steps s (pre ++ o :: post)) n = Some (Whole (dims_made (ds_grid d)) f).
Proof.
  intros s pre o post n d f G P D E. unfold save_all_steps. rewrite fold_left_app. cbn [fold_left]. change (dk_file (save_all_steps (fst (save_step (save_all_steps s pre) o)) post) n = Some (Whole (dims_made (ds_grid d)) f)).
  rewrite frame_all by assumption. destruct (c113_step (save_all_steps s pre) o n G) as [_ K]. rewrite D in K. now apply (proj1 K).
Qed.
Print Assumptions c113_last.
(** So what is opened answers as the dataset saved there last. *)
Theorem c113_answers_partial :
  forall dateutil cftime now tree hist s pre o post n d faces k v time has_depth depth q ex pts,
  GoesTo o n -> (forall o', In o' post -> ~ GoesTo o' n) -> op_data o = OnMesh d -> Savable d faces -> In (k, v) (ds_vars d) ->
  ask_disk tree hist dateutil cftime now (save_all_steps s (pre ++ o :: post)) n (d_name v) q ex pts =
  Some (ask_variable tree hist (s_nodes (ds_grid d)) faces v time has_depth depth q ex pts).
Proof.
  intros dateutil cftime now tree hist s pre o post n d faces k v time hd dv q ex pts G P D Sa I.
  destruct (savable_round d faces (op_format o) dateutil cftime Sa (proj1 G)) as (f & xs & Sv & _).
  unfold ask_disk. rewrite (c113_last s pre o post n d f G P D Sv). f_equal.
  rewrite <- (c110_answers_partial dateutil cftime now tree hist d faces (op_format o) k v time hd dv q ex pts Sa (proj1 G) I). unfold ask_saved. rewrite Sv. reflexivity.
Qed.
Print Assumptions c113_answers_partial.

(** A save that fails has already destroyed the file that was there; so it is
    whenever the grid is not a mesh, and with a mesh when a variable cannot be
    saved. *)
Theorem c113_failed_refuted : forall s o n e, GoesTo o n -> snd (save_step s o) = Err e -> dk_file (fst (save_step s o)) n = Some Broken.
Proof.
  intros s o n e G E. destruct (c113_step s o n G) as [_ K]. destruct (op_data o) as [d| |]; [|apply K..].
  destruct (save_dataset d (op_format o)) as [f|x]; [destruct (proj1 K f eq_refl) as [X _]; congruence|apply (proj2 K x eq_refl)].
Qed.
Print Assumptions c113_failed_refuted.
Theorem c113_other_grids_refuted : forall s o n, GoesTo o n -> op_data o = OnOther \/ op_data o = NoGrid ->
  snd (save_step s o) = Err AttributeError /\ dk_file (fst (save_step s o)) n = Some Broken.
Proof. intros s o n G D. destruct (c113_step s o n G) as [_ K]. destruct D as [D|D]; rewrite D in K; split; apply K. Qed.
Print Assumptions c113_other_grids_refuted.
(** A path that is not a string is refused, although reading accepts it. *)
Theorem c113_path_refuted : forall s d n format, snd (save_step s (mkOp (OnMesh d) (TPath n) format)) = Err ValueError.
Proof. intros. rewrite c113_refused; [reflexivity|]. right. right. cbn. eauto. Qed.
Print Assumptions c113_path_refuted.
(** The dataset that the caller had open is closed for them. *)
Theorem c113_closed_refuted : forall s d f n format, SomeFormat format -> save_dataset d format = Ok f -> In n (dk_open s) ->
  ~ In n (dk_open (fst (save_step s (mkOp (OnMesh d) (TOpen n) format)))).
Proof. intros s d f n format F E _. destruct (c113_step s (mkOp (OnMesh d) (TOpen n) format) n) as [_ K]; [split; [exact F|now right]|]. now apply (proj1 K f E). Qed.
Print Assumptions c113_closed_refuted.

Definition c113_disk : disk := mkDisk (fun n => if String.eqb n "a.nc" then Some (Before 7) else None) [].
Definition c113_saves : list op := [mkOp OnOther (TName "a.nc") "netcdf4"; mkOp (OnMesh c110_data) (TName "a.nc") "netcdf4"; mkOp (OnMesh c110_data) (TPath "a.nc") "netcdf4"; mkOp OnOther (TName "b.nc") "netcdf3"; mkOp (OnMesh c110_data) (TName "a.nc") "hdf"].
Example c113_example :
  ask_disk c94_tree (fun _ _ => []) demo_dateutil demo_cftime (mkTime [0%Z] None None) (save_all_steps c113_disk c113_saves) "a.nc" "temp" 7%Z false c94_pts =
    Some (ask_variable c94_tree (fun _ _ => []) c94_nodes c94_faces c110_temp None false None 7%Z false c94_pts) /\
  (exists a b c, ask_variable c94_tree (fun _ _ => []) c94_nodes c94_faces c110_temp None false None 7%Z false c94_pts = Ok [CVal a; CVal b; CVal c] /\ (a == 1)%Q /\ (b == 9 # 4)%Q) /\
  dk_file (save_all_steps c113_disk c113_saves) "b.nc" = Some Broken /\ dk_file (save_all_steps c113_disk [mkOp OnOther (TName "a.nc") "netcdf4"]) "a.nc" = Some Broken.
Proof.
  split; [|split; [do 3 eexists; split; [vm_compute; reflexivity|repeat split]|split; reflexivity]].
  apply (c113_answers_partial demo_dateutil demo_cftime (mkTime [0%Z] None None) c94_tree (fun _ _ => []) c113_disk [mkOp OnOther (TName "a.nc") "netcdf4"]
    (mkOp (OnMesh c110_data) (TName "a.nc") "netcdf4") [mkOp (OnMesh c110_data) (TPath "a.nc") "netcdf4"; mkOp OnOther (TName "b.nc") "netcdf3"; mkOp (OnMesh c110_data) (TName "a.nc") "hdf"] "a.nc" c110_data c94_faces "t" c110_temp).
  - split; [now right|now left].
  - intros o' [<-|[<-|[<-|[]]]] [F [T|T]]; cbn in F, T; try discriminate. destruct F; discriminate.
  - reflexivity.
  - exact c110_savable.
  - now left.
Qed.
