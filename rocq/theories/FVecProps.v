(** C114: from a file to the answers of a vector. *)
From Coq Require Import String Reals.
From Verif Require Import Common CommonProofs TimeModel TimeSpec GridTypeModel GridTypeSpec VariableModel VariableProofs DepthModel DepthSpec UGridGeomModel UGridGeomSpec UGridLocProofs TFileModel TFileSpec TFileProps LoadModel LoadSpec LoadProofs
  VLoadModel VLoadSpec VVarModel VVarSpec VVarProps WholeModel WholeSpec WholeProps FMeshModel FMeshSpec FMeshProofs FMeshProps FRectModel FStagModel FSgridModel FRomsModel FFvcomModel FVecModel FVecSpec FVecProofs.
Open Scope string_scope.
Open Scope list_scope.
Open Scope nat_scope.

(** The columns of the vector are the answers of the dataset's variables of
    these names: for files with meshes, regular grids, staggered grids without
    and with a topology variable, files of ROMS and of FVCOM. *)
Theorem c114_mesh_partial :
  forall dateutil cftime now tree hist f m vs cls comps a ks q ex pts,
  length (t_data now) = 1 -> UniqueNames f -> open_dataset dateutil cftime f = Ok (m, vs) ->
  AsksFor (as_load f) comps a ks -> Together 1 f vs ks ->
  ColumnsOf (fun k => ask_file dateutil cftime now tree hist f k q ex pts) ks (ask_mesh_vector dateutil cftime now tree hist f cls comps a q ex pts).
Proof.
  intros dateutil cftime now tree hist f m vs cls comps a ks q ex pts One U O As To.
  unfold open_dataset in O. apply bind_ok in O as (m' & Om & O). apply bind_ok in O as (vs' & Hv & O). injection O as -> ->.
  destruct (made_plain dateutil cftime now One (api m) f _ vs cls comps a ks U Hv As To) as (ve & Ev & F).
  unfold ask_mesh_vector, open_mesh_vector, read_vector. rewrite Om. cbn [bind]. rewrite Ev. cbn [bind fst snd]. unfold columns.
  rewrite <- (mapM_same (fun k => ask_file dateutil cftime now tree hist f k q ex pts) (fun x => answer now tree hist f m (own_depth x) q ex pts) ks); [apply columns_of|].
  revert F. apply Forall2_impl'. intros k x (v & Dv & E1 & E2 & E3 & E4 & E5). unfold ask_file, open_dataset. rewrite Om. cbn [bind]. rewrite Hv. cbn [bind fst snd]. rewrite Dv.
  unfold answer, depth_of. rewrite E1, E2, E3, E4, E5. reflexivity.
Qed.
Print Assumptions c114_mesh_partial.
Theorem c114_rect_partial :
  forall dateutil cftime now f m vs cls comps a ks q ex pts,
  length (t_data now) = 1 -> UniqueNames f -> open_rect_dataset dateutil cftime f = Ok (m, vs) ->
  AsksFor (as_load f) comps a ks -> Together 2 f vs ks ->
  ColumnsOf (fun k => ask_rect dateutil cftime now f k q ex pts) ks (ask_rect_vector dateutil cftime now f cls comps a q ex pts).
Proof.
  intros dateutil cftime now f m vs cls comps a ks q ex pts One U O As To.
  unfold open_rect_dataset in O. apply bind_ok in O as (m' & Om & O). apply bind_ok in O as (vs' & Hv & O). injection O as -> ->.
  destruct (made_plain dateutil cftime now One (rect_api m) f _ vs cls comps a ks U Hv As To) as (ve & Ev & F).
  unfold ask_rect_vector, open_rect_vector, read_vector. rewrite Om. cbn [bind]. rewrite Ev. cbn [bind fst snd]. unfold columns.
  rewrite <- (mapM_same (fun k => ask_rect dateutil cftime now f k q ex pts) (fun x => rect_answer now f m (own_depth x) q ex pts) ks); [apply columns_of|].
  revert F. apply Forall2_impl'. intros k x (v & Dv & E1 & E2 & E3 & E4 & E5). unfold ask_rect, open_rect_dataset. rewrite Om. cbn [bind]. rewrite Hv. cbn [bind fst snd]. rewrite Dv.
  unfold rect_answer, depth_of. rewrite E1, E2, E4, E5. reflexivity.
Qed.
Print Assumptions c114_rect_partial.
Theorem c114_stag_partial :
  forall dateutil cftime now find s m vs cls comps a ks q ex pts,
  length (t_data now) = 1 -> UniqueNames (sf_file s) -> open_stag_dataset dateutil cftime s = Ok (m, vs) ->
  AsksFor (as_load (sf_file s)) comps a ks -> Together 2 (sf_file s) vs ks ->
  ColumnsOf (fun k => ask_stag dateutil cftime now find s k q ex pts) ks (ask_stag_vector dateutil cftime now find s cls comps a q ex pts).
Proof.
  intros dateutil cftime now find s m vs cls comps a ks q ex pts One U O As To.
  unfold open_stag_dataset in O. apply bind_ok in O as (m' & Om & O). apply bind_ok in O as (vs' & Hv & O). injection O as -> ->.
  destruct (made_plain dateutil cftime now One (stag_api m) (sf_file s) _ vs cls comps a ks U Hv As To) as (ve & Ev & F).
  unfold ask_stag_vector, open_stag_vector, read_vector. rewrite Om. cbn [bind]. rewrite Ev. cbn [bind fst snd]. unfold columns.
  rewrite <- (mapM_same (fun k => ask_stag dateutil cftime now find s k q ex pts) (fun x => stag_answer now find s m (own_depth x) q ex pts) ks); [apply columns_of|].
  revert F. apply Forall2_impl'. intros k x (v & Dv & E1 & E2 & E3 & E4 & E5). unfold ask_stag, open_stag_dataset. rewrite Om. cbn [bind]. rewrite Hv. cbn [bind fst snd]. rewrite Dv.
  unfold stag_answer, stag_depth. rewrite E1, E2, E3, E4, E5. reflexivity.
Qed.
Print Assumptions c114_stag_partial.
Theorem c114_sgrid_partial :
  forall dateutil cftime now find s m vs cls comps a ks q ex pts,
  length (t_data now) = 1 -> UniqueNames (sf_file s) -> open_sgrid_dataset dateutil cftime s = Ok (m, vs) ->
  AsksFor (as_load (sf_file s)) comps a ks -> Together 2 (sf_file s) vs ks ->
  ColumnsOf (fun k => ask_sgrid dateutil cftime now find s k q ex pts) ks (ask_sgrid_vector dateutil cftime now find s cls comps a q ex pts).
Proof.
  intros dateutil cftime now find s m vs cls comps a ks q ex pts One U O As To.
  unfold open_sgrid_dataset in O. apply bind_ok in O as (m' & Om & O). apply bind_ok in O as (vs' & Hv & O). injection O as -> ->.
  destruct (made_plain dateutil cftime now One (stag_api m) (sf_file s) _ vs cls comps a ks U Hv As To) as (ve & Ev & F).
  unfold ask_sgrid_vector, open_sgrid_vector, read_vector. rewrite Om. cbn [bind]. rewrite Ev. cbn [bind fst snd]. unfold columns.
  rewrite <- (mapM_same (fun k => ask_sgrid dateutil cftime now find s k q ex pts) (fun x => stag_answer now find s m (own_depth x) q ex pts) ks); [apply columns_of|].
  revert F. apply Forall2_impl'. intros k x (v & Dv & E1 & E2 & E3 & E4 & E5). unfold ask_sgrid, open_sgrid_dataset. rewrite Om. cbn [bind]. rewrite Hv. cbn [bind fst snd]. rewrite Dv.
  unfold stag_answer, stag_depth. rewrite E1, E2, E3, E4, E5. reflexivity.
Qed.
Print Assumptions c114_sgrid_partial.
Theorem c114_roms_partial :
  forall dateutil cftime now find s m vs cls comps a ks q ex pts,
  length (t_data now) = 1 -> UniqueNames (sf_file s) -> open_roms_dataset dateutil cftime now s = Ok (m, vs) ->
  AsksFor (as_load (sf_file s)) comps a ks -> Together 2 (sf_file s) vs ks ->
  ColumnsOf (fun k => ask_roms dateutil cftime now find s k q ex pts) ks (ask_roms_vector dateutil cftime now find s cls comps a q ex pts).
Proof.
  intros dateutil cftime now find s m vs cls comps a ks q ex pts One U O As To.
  unfold open_roms_dataset in O. apply bind_ok in O as (m' & Om & O). apply bind_ok in O as (vs' & Hv & O). injection O as -> ->.
  destruct (made_timed dateutil cftime now One (stag_api m) (sf_file s) (fun u => do _ <- read_any dateutil cftime (sf_file s) (stag_api m) u; Ok tt) vs cls comps a ks U
    (fun k x D => each_got (stag_api m) (roms_each dateutil cftime now (sf_file s) (stag_api m)) (roms_load dateutil cftime now (sf_file s) (stag_api m)) ltac:(intros [|[? ?] ?]; reflexivity) _ _ _ _ Hv D) As To) as (ve & Ev & F).
  unfold ask_roms_vector, open_roms_vector. rewrite Om. cbn [bind]. rewrite Ev. cbn [bind fst snd]. unfold columns.
  rewrite <- (mapM_same (fun k => ask_roms dateutil cftime now find s k q ex pts) (fun x => roms_answer dateutil cftime now find s m (own_depth x) q ex pts) ks); [apply columns_of|].
  revert F. apply Forall2_impl'. intros k x (v & Dv & E1 & E2 & E3 & E4 & E5). unfold ask_roms, open_roms_dataset. rewrite Om. cbn [bind]. rewrite Hv. cbn [bind fst snd]. rewrite Dv.
  unfold roms_answer, roms_depth, stag_depth. rewrite E1, E2, E3, E4, E5. reflexivity.
Qed.
Print Assumptions c114_roms_partial.
Theorem c114_fvcom_partial :
  forall dateutil cftime now tree hist f m vs cls comps a ks q ex pts,
  length (t_data now) = 1 -> UniqueNames f -> open_fvcom_dataset dateutil cftime now f = Ok (m, vs) ->
  AsksFor (as_load f) comps a ks -> Together 1 f vs ks ->
  ColumnsOf (fun k => ask_fvcom dateutil cftime now tree hist f k q ex pts) ks (ask_fvcom_vector dateutil cftime now tree hist f cls comps a q ex pts).
Proof.
  intros dateutil cftime now tree hist f m vs cls comps a ks q ex pts One U O As To.
  unfold open_fvcom_dataset in O. apply bind_ok in O as (m' & Om & O). apply bind_ok in O as (vs' & Hv & O). injection O as -> ->.
  destruct (made_timed dateutil cftime now One (api m) f (fun u => do _ <- read_sigma dateutil cftime f (api m) u; Ok tt) vs cls comps a ks U
    (fun k x D => each_got (api m) (fvcom_each dateutil cftime now f (api m)) (fvcom_load dateutil cftime now f (api m)) ltac:(intros [|[? ?] ?]; reflexivity) _ _ _ _ Hv D) As To) as (ve & Ev & F).
  unfold ask_fvcom_vector, open_fvcom_vector. rewrite Om. cbn [bind]. rewrite Ev. cbn [bind fst snd]. unfold columns.
  rewrite <- (mapM_same (fun k => ask_fvcom dateutil cftime now tree hist f k q ex pts) (fun x => fvcom_answer dateutil cftime now tree hist f m (own_depth x) q ex pts) ks); [apply columns_of|].
  revert F. apply Forall2_impl'. intros k x (v & Dv & E1 & E2 & E3 & E4 & E5). unfold ask_fvcom, open_fvcom_dataset. rewrite Om. cbn [bind]. rewrite Hv. cbn [bind fst snd]. rewrite Dv.
  unfold fvcom_answer, sigma_depth, depth_of. rewrite E1, E2, E3, E4, E5. reflexivity.
Qed.
Print Assumptions c114_fvcom_partial.

(** A whole session with the vector, whose answers and those of its components
    are cached: if the dataset's variables answer as they should, so do the
    columns of the vector. *)
Section Session.
  Context (dateutil : string -> dparse) (cftime : string -> option (Z * Z * Z)) (now : time_obj) (tree : list pt -> list (list Z) -> list pt -> list Z) (hist : list nat -> list spot -> list ug_op).
  Context (f : file) (m : mesh) (vs : dict variable) (cls : string) (comps : list (list string * list string)) (a : vargs) (ks : list string).
  Context (One : length (t_data now) = 1) (U : UniqueNames f) (O : open_dataset dateutil cftime f = Ok (m, vs)) (As : AsksFor (as_load f) comps a ks) (To : Together 1 f vs ks).
  Lemma vector_opened : exists ve, open_mesh_vector dateutil cftime now f cls comps a = Ok (m, ve) /\
    forall q ex pts, Forall2 (fun k x => answer now tree hist f m (own_depth x) q ex pts = ask_file dateutil cftime now tree hist f k q ex pts) ks (ve_comps ve).
  Proof.
    pose proof O as O'. unfold open_dataset in O'. apply bind_ok in O' as (m' & Om & O'). apply bind_ok in O' as (vs' & Hv & O'). injection O' as -> ->.
    destruct (made_plain dateutil cftime now One (api m) f _ vs cls comps a ks U Hv As To) as (ve & Ev & F). exists ve.
    unfold open_mesh_vector, read_vector. rewrite Om. cbn [bind]. rewrite Ev. split; [reflexivity|]. intros q ex pts. revert F. apply Forall2_impl'.
    intros k x (v & Dv & E1 & E2 & E3 & E4 & E5). unfold ask_file. rewrite O. cbn [bind fst snd]. rewrite Dv. unfold answer, depth_of. rewrite E1, E2, E3, E4, E5. reflexivity.
  Qed.
End Session.
Theorem c114_session_partial :
  forall dateutil cftime now tree hist f m vs cls comps a ks ex opts ops (P : string -> request -> list cell -> Prop),
  length (t_data now) = 1 -> UniqueNames f -> open_dataset dateutil cftime f = Ok (m, vs) ->
  AsksFor (as_load f) comps a ks -> Together 1 f vs ks ->
  Forall (fun op => match op with VAt _ r | VComp _ (Call r) => uniform 3 opts r | VComp _ (SetData _) => False end) ops ->
  (forall k mem r, In k ks -> In (VAt mem r) ops -> exists c, ask_file dateutil cftime now tree hist f k (rq_time r) ex (map spot_of (rq_pts r)) = Ok c /\ P k r c) ->
  exists ve, open_mesh_vector dateutil cftime now f cls comps a = Ok (m, ve) /\
  Forall2 (fun op ans => match op with
                         | VAt _ r => exists cs, ans = Some (Ok cs) /\ Forall2 (fun k c => P k r c) ks cs
                         | VComp _ _ => ans = None
                         end)
    ops (snd (vec_run (at_request (fun x q pts => answer now tree hist f m x q ex pts)) (VVarModel.mkVec (map (fun x => mkAt (own_depth x) []) (ve_comps ve)) []) ops)).
Proof.
  intros dateutil cftime now tree hist f m vs cls comps a ks ex opts ops P One U O As To Hf HP.
  destruct (vector_opened dateutil cftime now tree hist f m vs cls comps a ks One U O As To) as (ve & Ev & F). exists ve. split; [exact Ev|].
  pose proof (c72_transparent_partial variable (list cell) (at_request (fun x q pts => answer now tree hist f m x q ex pts)) 3 opts (map own_depth (ve_comps ve)) ops ltac:(lia) Hf) as K.
  rewrite map_map in K. revert K HP. generalize (snd (vec_run (at_request (fun x q pts => answer now tree hist f m x q ex pts)) (VVarModel.mkVec (map (fun x => mkAt (own_depth x) []) (ve_comps ve)) []) ops)).
  clear Hf. induction ops as [|op ops IH]; intros answers K HP; inversion K as [|? an ? ans Ka Kr]; subst; constructor.
  - destruct op as [mem r|n op]; [|exact Ka]. destruct Ka as (v & -> & Cv). specialize (F (rq_time r) ex (map spot_of (rq_pts r))).
    assert (G : exists cs, Forall2 (fun d v => at_request (fun x q pts => answer now tree hist f m x q ex pts) d r = Ok v) (map own_depth (ve_comps ve)) cs /\ Forall2 (fun k c => P k r c) ks cs).
    { assert (Hk : forall k, In k ks -> exists c, ask_file dateutil cftime now tree hist f k (rq_time r) ex (map spot_of (rq_pts r)) = Ok c /\ P k r c) by (intros k Ik; apply (HP k mem r Ik); now left).
      clear - F Hk. induction F as [|k x ks xs E _ IH]; [exists []; split; constructor|]. destruct (Hk k (or_introl eq_refl)) as (c & Ec & Pc).
      destruct IH as (cs & A & B); [intros k' I; apply Hk; now right|]. exists (c :: cs). cbn [map]. split; constructor; auto. unfold at_request. rewrite E. exact Ec. }
    destruct G as (cs & A & B). exists cs. split; [|exact B]. f_equal. apply (c72_columns_unique _ _ _ _ _ _ _ Cv). constructor. exact A.
  - apply IH; auto. intros k mem r Ik Ir. apply (HP k mem r Ik). now right.
Qed.
Print Assumptions c114_session_partial.

(** Components at the nodes of a mesh that sample fields: every column is its
    field, in every answer of a session.  Missing: as in C102. *)
Lemma axis_unique f v n n' : TimeAxisOf f v n -> TimeAxisOf f v n' -> n = n'.
Proof. intros A B. apply (proj1 (locate_iff f v)) in A, B. congruence. Qed.
Theorem c114_fields_partial :
  forall dateutil cftime now tree hist f m vs mv nodes faces find cls comps a ks axis (w : string -> mvar) (ts : list Z) levels (F : string -> quantity) qa ex z opts ops,
  length (t_data now) = 1 -> UniqueNames f -> MeshVarOf f mv -> NodesIn f mv nodes -> FacesIn f mv faces -> TriMesh nodes faces ->
  open_dataset dateutil cftime f = Ok (m, vs) ->
  (forall ps, tree nodes faces ps = map find ps) -> (forall ix ps, Forall asks (hist ix ps)) -> FindsFaces nodes faces find ->
  AsksFor (as_load f) comps a ks -> LevelsIn f levels ->
  (forall k, In k ks -> In (k, w k) (fi_vars f) /\ Unmentioned mv k /\ Attr (w k) "location" "node" /\ OnTime f axis (w k) /\
     InstantsIn cftime f (w k) ts /\ Shaped (w k) (length ts) levels (length nodes) /\ Changes (Some ts) levels (F k) /\
     forall ix t d, SampleAt (Some ts) levels ix t d -> NodeSamples nodes (F k t d) (fm_part (w k) ix) /\ LinearOverFaces nodes faces (F k t d)) ->
  Forall (fun op => match op with VAt _ r | VComp _ (Call r) => uniform 3 opts r | VComp _ (SetData _) => False end) ops ->
  (forall mem r, In (VAt mem r) ops -> TimeOk (Some ts) ex (rq_time r) (qa (rq_time r)) /\
     forall row, In row (rq_pts r) -> DepthOk levels default_sbc default_bbc (nth 2 row 0%Q) (z (nth 2 row 0%Q))) ->
  exists ve, open_mesh_vector dateutil cftime now f cls comps a = Ok (m, ve) /\
  Forall2 (fun op ans => match op with
      | VAt _ r => exists cs, ans = Some (Ok cs) /\ Forall2 (fun k col => Forall2 (fun row c => let p := (nth 0 row 0, nth 1 row 0)%Q in
          (find p <> (-1)%Z -> Shows (F k (qa (rq_time r)) (z (nth 2 row 0%Q)) p) c) /\ (find p = (-1)%Z -> Shows 0 c)) (rq_pts r) col) ks cs
      | VComp _ _ => ans = None
      end)
    ops (snd (vec_run (at_request (fun x q pts => answer now tree hist f m x q ex pts)) (VVarModel.mkVec (map (fun x => mkAt (own_depth x) []) (ve_comps ve)) []) ops)).
Proof.
  intros dateutil cftime now tree hist f m vs mv nodes faces find cls comps a ks axis w ts levels F qa ex z opts ops One U MV NI FI T O HT HH FF As Lv Hk Hf Hq.
  assert (To : Together 1 f vs ks).
  { destruct As as (_ & L2 & _). destruct ks as [|k0 r]; [cbn in L2; lia|]. exists (w k0). destruct (Hk k0 (or_introl eq_refl)) as (I0 & _ & _ & (T0 & D0) & _ & S0 & _).
    split; [exists k0, r; auto|]. split; [|intros N; destruct (N axis T0)]. intros k Ik. destruct (Hk k Ik) as (I & Un & Lo & (Tk & Dk) & In_ & Sk & _). exists (w k). split; [exact I|].
    split; [|split].
    - destruct (c102_variable dateutil cftime f m vs mv nodes faces k (w k) "node" ts levels (length nodes)) as (v & _ & _ & G & _); auto; [unfold ValidLocation; auto 10|].
      clear - G. induction vs as [|[k' x] l IH]; [discriminate|]. cbn [dget map fst] in *. destruct (String.eqb_spec k k'); [left; auto|right; auto].
    - split; [|split; [|split]].
      + intros n. split; intros X; [rewrite <- (axis_unique _ _ _ _ T0 X); exact Tk|rewrite <- (axis_unique _ _ _ _ Tk X); exact T0].
      + unfold to_load. cbn [lv_shape]. unfold Shaped in Sk, S0. rewrite Sk, S0. reflexivity.
      + unfold to_load. cbn [lv_dims]. unfold Shaped in S0. rewrite S0 in D0. intros E. rewrite E in D0. discriminate.
      + unfold to_load. cbn [lv_dims]. unfold Shaped in Sk. rewrite Sk in Dk. intros E. rewrite E in Dk. discriminate.
    - intros l A. unfold Attr in A, Lo. rewrite Lo in A. injection A as <-. unfold ValidLocation. auto 10. }
  apply (c114_session_partial dateutil cftime now tree hist f m vs cls comps a ks ex opts ops (fun k r col => Forall2 (fun row c => let p := (nth 0 row 0, nth 1 row 0)%Q in
          (find p <> (-1)%Z -> Shows (F k (qa (rq_time r)) (z (nth 2 row 0%Q)) p) c) /\ (find p = (-1)%Z -> Shows 0 c)) (rq_pts r) col)); auto.
  intros k mem r Ik Ir. destruct (Hk k Ik) as (I & Un & Lo & (Tk & Dk) & In_ & Sk & Ch & Sa). destruct (Hq mem r Ir) as (TO & D).
  destruct (c102_nodes_partial dateutil cftime now tree hist f m vs mv nodes faces find k (w k) ts levels (F k) (rq_time r) (qa (rq_time r)) ex z (map spot_of (rq_pts r))) as (cs & E & V); auto.
  - intros s Hs. apply in_map_iff in Hs. destruct Hs as (row & <- & Hr). exact (D row Hr).
  - exists cs. split; [exact E|]. clear - V. revert cs V. induction (rq_pts r) as [|row rows IH]; intros cs V; inversion V; subst; constructor; auto.
Qed.
Print Assumptions c114_fields_partial.

(** ** A file with currents *)
Definition c114_of (scale : Q) (at_times : list Z) (ix : list nat) : list cell :=
  match ix with
  | [i; j] => map (fun p => CVal (scale * c102_field (nth i at_times 0%Z) (nth j c94_levels 0%Q) p)%Q) c94_nodes
  | _ => []
  end.
Definition c114_var (axis place : string) (scale : Q) (at_times : list Z) : mvar :=
  c102_var [axis; "depth"; "node"] [2; 3; 4] [("location", place); ("units", "m/s")] (c114_of scale at_times).
Definition c114_file (v : mvar) : file := mkFile None ["node"; "face"; "three"; "time"; "depth"; "timelate"]
  (c102_grid_vars ++ [("time", c102_time); ("depth", c102_depth); ("u", c114_var "time" "node" 1 c102_times); ("v", v);
                      ("timelate", mkMvar ["timelate"] [2] [("units", "hours since 2024-01-01T00:00:00")] None None None [11; 12]%Z [] [] (fun _ => []))]).
Definition c114_now : time_obj := mkTime [0%Z] None None.
Definition c114_uv : list (list string * list string) := [(["u"; "east"], []); (["v"; "north"], [])].
Definition c114_args : vargs := mkVargs None None None None TzNone None None false None.
Definition c114_ask (f : file) := ask_mesh_vector demo_dateutil demo_cftime c114_now c94_tree (fun _ _ => []) f "VelocityUV" c114_uv c114_args.
Definition c114_good : file := c114_file (c114_var "time" "node" 2 c102_times).

(** Hypotheses that hold, and the answers between two samples: the field and
    twice the field. *)
Example c114_example :
  exists m vs, open_dataset demo_dateutil demo_cftime c114_good = Ok (m, vs) /\
  AsksFor (as_load c114_good) c114_uv c114_args ["u"; "v"] /\ Together 1 c114_good vs ["u"; "v"] /\ UniqueNames c114_good /\
  exists us ws, c114_ask c114_good (hour + 1800000000)%Z false c94_pts = Ok [us; ws] /\
    Forall2 (fun s c => c94_find (place s) <> (-1)%Z -> Shows (c102_field (hour + 1800000000)%Z (deep s) (place s)) c) c94_pts us /\
    Forall2 (fun s c => c94_find (place s) <> (-1)%Z -> Shows (2 * c102_field (hour + 1800000000)%Z (deep s) (place s)) c) c94_pts ws.
Proof.
  eexists _, _. split; [vm_compute; reflexivity|]. split; [|split; [|split]].
  - split; [right; split; [reflexivity|]; split; [reflexivity|]; exists "u"; left; reflexivity|]. cbn. repeat split; lia.
  - exists (c114_var "time" "node" 1 c102_times). split; [exists "u", ["v"]; split; [reflexivity|do 6 right; left; reflexivity]|]. split.
    + intros k [<-|[<-|[]]].
      * exists (c114_var "time" "node" 1 c102_times). split; [do 6 right; left; reflexivity|]. split; [vm_compute; tauto|]. split; [repeat split; auto; discriminate|].
        intros l A. vm_compute in A. injection A as <-. unfold ValidLocation. auto 10.
      * exists (c114_var "time" "node" 2 c102_times). split; [do 7 right; left; reflexivity|]. split; [vm_compute; tauto|]. split; [|intros l A; vm_compute in A; injection A as <-; unfold ValidLocation; auto 10].
        split; [|repeat split; discriminate]. intros n. reflexivity.
    + intros N. exfalso. apply (N "time"). right. split; [intros n [A _]; vm_compute in A; discriminate|]. split; [eexists; reflexivity|]. exists "", "". reflexivity.
  - unfold UniqueNames. cbn [c114_good c114_file fi_vars c102_grid_vars app map fst]. distinct.
  - eexists _, _. split; [vm_compute; reflexivity|]. split; repeat constructor; intros N; first [exfalso; apply N; reflexivity | eexists; split; [reflexivity|vm_compute; reflexivity]].
Qed.

(** A session: a question, another, the first again (from the cache), one out
    of range. *)
Example c114_session :
  exists m ve a1 a2,
  open_mesh_vector demo_dateutil demo_cftime c114_now c114_good "VelocityUV" c114_uv c114_args = Ok (m, ve) /\
  let r1 := mkReq [[1 # 2; 1 # 4; 2]; [3 # 4; 3 # 4; 0]]%Q (hour + 1800000000)%Z 0 in let r2 := mkReq [[1 # 2; 1 # 4; 5]]%Q (2 * hour)%Z 0 in
  snd (vec_run (at_request (fun x q pts => answer c114_now c94_tree (fun _ _ => []) c114_good m x q false pts))
        (VVarModel.mkVec (map (fun x => mkAt (own_depth x) []) (ve_comps ve)) []) [VAt true r1; VComp 1 (Call r2); VAt true r2; VAt true r1; VAt true (mkReq [[0; 0; 0]]%Q (99 * hour)%Z 0)])
  = [Some (Ok a1); None; Some (Ok a2); Some (Ok a1); Some (Err OutOfTimeRangeError)] /\ map (@length cell) a1 = [2; 2] /\ map (@length cell) a2 = [1; 1].
Proof. eexists _, _, _, _. split; [vm_compute; reflexivity|]. split; [vm_compute; reflexivity|]. split; reflexivity. Qed.

(** Refuted for components on another time axis: it is opened with the times of
    the first, and answers at the instants of its own samples are not its own. *)
Theorem c114_times_refuted :
  exists f w q pts us ws cs, UniqueNames f /\ In ("v", w) (fi_vars f) /\ InstantsIn demo_cftime f w [11 * hour; 12 * hour]%Z /\
  c114_ask f q false pts = Ok [us; ws] /\ c102_ask f "v" q true pts = Ok cs /\ ws <> cs /\
  c114_ask f (11 * hour)%Z false pts = Err OutOfTimeRangeError /\ exists c, c102_ask f "v" (11 * hour)%Z false pts = Ok c.
Proof.
  exists (c114_file (c114_var "timelate" "node" 1 [11 * hour; 12 * hour]%Z)), (c114_var "timelate" "node" 1 [11 * hour; 12 * hour]%Z), (hour + 1800000000)%Z, c94_pts. eexists _, _, _.
  split; [unfold UniqueNames; cbn [c114_file fi_vars c102_grid_vars app map fst]; distinct|]. split; [do 7 right; left; reflexivity|]. split.
  - exists "timelate". eexists. split; [|split; [do 8 right; left; reflexivity|]].
    + right. split; [intros n [A _]; vm_compute in A; discriminate|]. split; [eexists; reflexivity|]. exists "", "late". reflexivity.
    + split; [|split].
      * exists "hours since 2024-01-01T00:00:00", hour, 0%Z, 0%Z. split; [reflexivity|]. split; [reflexivity|]. repeat constructor.
      * exists "hours since 2024-01-01T00:00:00". split; [reflexivity|]. exists "hours ", " 2024-01-01T00:00:00". reflexivity.
      * intros i j x y Hij Hx Hy. destruct i as [|[|i]], j as [|[|j]]; cbn in Hx, Hy; try discriminate; try lia; try (destruct j; discriminate); try (destruct i; discriminate).
        injection Hx as <-. injection Hy as <-. reflexivity.
  - split; [vm_compute; reflexivity|]. split; [vm_compute; reflexivity|]. split; [vm_compute; discriminate|]. split; [vm_compute; reflexivity|]. eexists. vm_compute. reflexivity.
Qed.
Print Assumptions c114_times_refuted.
(** Refuted for a component that says it is at a place that is not known: the
    dataset holds it, at the place the grid infers, and the vector is refused. *)
Theorem c114_place_refuted :
  exists f m vs v, open_dataset demo_dateutil demo_cftime f = Ok (m, vs) /\ dget vs "v" = Some v /\ va_loc v = "node" /\
  forall q ex pts, c114_ask f q ex pts = Err ValueError.
Proof.
  exists (c114_file (c114_var "time" "corner" 2 c102_times)). eexists _, _, _. split; [vm_compute; reflexivity|]. split; [vm_compute; reflexivity|]. split; [reflexivity|].
  intros q ex pts. unfold c114_ask, ask_mesh_vector.
  assert (E : open_mesh_vector demo_dateutil demo_cftime c114_now (c114_file (c114_var "time" "corner" 2 c102_times)) "VelocityUV" c114_uv c114_args = Err ValueError) by (vm_compute; reflexivity).
  rewrite E. reflexivity.
Qed.
Print Assumptions c114_place_refuted.
