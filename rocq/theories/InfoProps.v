(** C111: what a report says. *)
From Coq Require Import String Ascii.
From Verif Require Import Common CommonProofs DepthModel DepthProofs GridTypeModel GridTypeProofs DObjProofs IsoModel MaskSpec MaskProofs InfoModel InfoSpec InfoProofs.
Open Scope string_scope.
Open Scope list_scope.
Open Scope nat_scope.

Lemma show_one x : OneLineOf x -> OneLine (show x).
Proof. destruct x as [s|]; intros H; [now apply H|]. repeat split; discriminate. Qed.
Ltac one_line := rewrite ?one_app; repeat split; try discriminate; auto using show_one, decimal_one, shape_one.
Ltac all_lines := repeat (constructor; [one_line|]); try constructor.

(** ** Times *)
Theorem c111_time :
  forall (T : Type) (text_of : T -> string) filename varname data,
  OneLineOf filename -> OneLineOf varname -> (forall t, In t data -> OneLine (text_of t)) ->
  (data = [] /\ time_info text_of filename varname data = Err IndexError) \/
  exists t u s, hd_error data = Some t /\ hd_error (rev data) = Some u /\ time_info text_of filename varname data = Ok s /\
    LinesOf s ["" ; "Time object:"; "  filename: " ++ show filename; "  varname: " ++ show varname; "  first timestep: " ++ text_of t;
      "  final timestep: " ++ text_of u; "  number of timesteps: " ++ decimal (length data); ""]%string.
Proof.
  intros T text_of filename varname data Hf Hv Ht. destruct data as [|t r]; [left; auto|right].
  assert (U : exists u, hd_error (rev (t :: r)) = Some u /\ last r t = u /\ In u (t :: r)).
  { clear. revert t. induction r as [|a r IH]; intros t; [exists t; cbn; auto|]. destruct (IH a) as (u & E & L & I). exists u. split; [|split; [|now right]].
    - cbn [rev] in E |- *. destruct ((rev r ++ [a])) as [|x l] eqn:X; [discriminate|]. exact E.
    - destruct r as [|b r]; [exact L|]. change (last (b :: r) t = u). rewrite <- L. clear. revert b. induction r as [|c r IH]; intros b; [reflexivity|]. exact (IH c). }
  destruct U as (u & E & L & I). exists t, u. eexists. split; [reflexivity|]. split; [exact E|]. split; [cbn [time_info]; rewrite L; reflexivity|].
  pose proof (Ht t (or_introl eq_refl)) as Ot. pose proof (Ht u I) as Ou. pose proof (decimal_one (length (t :: r))) as On.
  revert Ot Ou On. generalize (decimal (length (t :: r))) (text_of t) (text_of u). intros n x y Ox Oy On. clear - Hf Hv Ox Oy On.
  apply show_one in Hf, Hv. revert Hf Hv. generalize (show filename) (show varname). intros f v Hf Hv.
  unfold dedent. rewrite lines_unlines; [|discriminate|all_lines].
  lazymatch goal with |- LinesOf ?a ?l => assert (E : a = unlines l) by reflexivity; rewrite E; clear E end. apply lines_of_unlines; [discriminate|all_lines].
Qed.
Print Assumptions c111_time.

(** ** Variables *)
Lemma variable_text v s : PlainVariable v -> vi_shape v = Some s ->
  variable_info v = Ok (unlines ("" :: variable_lines (vi_filename v) (vi_varname v) (dget (vi_attrs v) "standard_name") (vi_units v) (vi_grid v) (show_shape s) ++ [""])) /\
  Forall OneLine (variable_lines (vi_filename v) (vi_varname v) (dget (vi_attrs v) "standard_name") (vi_units v) (vi_grid v) (show_shape s)).
Proof.
  intros [Hf Hn Hs Hu Hg] E. unfold variable_info. rewrite E.
  assert (St : OneLineOf (dget (vi_attrs v) "standard_name")).
  { intros w H. apply dget_in in H. exact (Hs _ _ H). }
  pose proof (shape_one s) as Os. apply show_one in Hf, Hn, Hu, St. unfold variable_lines. revert Hf Hn Hu St Hg Os.
  generalize (show (vi_filename v)) (show (vi_varname v)) (show (vi_units v)) (show (dget (vi_attrs v) "standard_name")) (vi_grid v) (show_shape s).
  clear. intros f n u st g sh Hf Hn Hu Hst Hg Hsh. split; [|all_lines]. f_equal.
  unfold dedent. rewrite lines_unlines; [|discriminate|all_lines]. reflexivity.
Qed.
Theorem c111_variable : forall v s, PlainVariable v -> vi_shape v = Some s ->
  exists t, variable_info v = Ok t /\
    LinesOf t ("" :: variable_lines (vi_filename v) (vi_varname v) (dget (vi_attrs v) "standard_name") (vi_units v) (vi_grid v) (show_shape s) ++ [""]).
Proof.
  intros v s P E. destruct (variable_text v s P E) as [T F]. eexists. split; [exact T|]. apply lines_of_unlines; [discriminate|].
  constructor; [exact I|]. apply Forall_app. split; [exact F|]. repeat constructor.
Qed.
Print Assumptions c111_variable.

(** The report tells variables apart: equal reports have equal texts and shapes. *)
Theorem c111_variable_reads : forall v w s r t, PlainVariable v -> PlainVariable w -> vi_shape v = Some s -> vi_shape w = Some r ->
  variable_info v = Ok t -> variable_info w = Ok t ->
  show (vi_filename v) = show (vi_filename w) /\ show (vi_varname v) = show (vi_varname w) /\
  show (dget (vi_attrs v) "standard_name") = show (dget (vi_attrs w) "standard_name") /\ show (vi_units v) = show (vi_units w) /\
  vi_grid v = vi_grid w /\ s = r.
Proof.
  intros v w s r t Pv Pw Ev Ew Iv Iw. destruct (variable_text v s Pv Ev) as [Tv Fv]. destruct (variable_text w r Pw Ew) as [Tw Fw].
  rewrite Tv in Iv. rewrite Tw in Iw. assert (E : unlines ("" :: variable_lines (vi_filename v) (vi_varname v) (dget (vi_attrs v) "standard_name") (vi_units v) (vi_grid v) (show_shape s) ++ [""]) =
    unlines ("" :: variable_lines (vi_filename w) (vi_varname w) (dget (vi_attrs w) "standard_name") (vi_units w) (vi_grid w) (show_shape r) ++ [""])) by congruence.
  apply unlines_same in E; [|discriminate|discriminate|constructor; [exact I|]; apply Forall_app; split; [assumption|repeat constructor]..].
  unfold variable_lines in E. cbn [app append] in E. injection E as E1 E2 E3 E4 E5 E6. repeat split; auto. now apply shape_inj.
Qed.
Print Assumptions c111_variable_reads.
(** A variable without data has no report. *)
Theorem c111_no_data : forall cls v, vi_shape v = None <-> (variable_info v = Err AttributeError /\ variable_repr cls v = Err AttributeError).
Proof.
  intros cls v. unfold variable_info, variable_repr. destruct (vi_shape v); split; auto; [discriminate|]. intros [H _]. discriminate.
Qed.
Print Assumptions c111_no_data.
(** What is printed for a variable. *)
Theorem c111_repr : forall cls v s, vi_shape v = Some s -> OneLine cls -> OneLineOf (vi_name v) -> OneLine (vi_time v) -> OneLineOf (vi_units v) -> OneLineOf (vi_location v) -> OneLine (vi_type v) ->
  exists t, variable_repr cls v = Ok t /\
    LinesOf t [cls ++ "(name=""" ++ show (vi_name v) ++ """, "; "time=""" ++ vi_time v ++ """, "; "units=""" ++ show (vi_units v) ++ """, ";
      "location=""" ++ show (vi_location v) ++ """ "; "data=Type:" ++ vi_type v ++ ", shape:" ++ show_shape s ++ """, )"]%string.
Proof.
  intros cls v s E Oc On Ot Ou Ol Oy. unfold variable_repr. rewrite E. eexists. split; [reflexivity|]. pose proof (shape_one s) as Os. apply lines_of_unlines; [discriminate|]. all_lines.
Qed.
Print Assumptions c111_repr.
(** Nothing is told apart from the text None. *)
Theorem c111_none_refuted : exists v w, vi_units v <> vi_units w /\ variable_info v = variable_info w /\ exists t, variable_info v = Ok t.
Proof.
  exists (mkVinfo None None [] None "" None None "grid" "array" (Some [3])), (mkVinfo None None [] None "" (Some "None") None "grid" "array" (Some [3])).
  split; [discriminate|]. split; [reflexivity|]. eexists. vm_compute. reflexivity.
Qed.
Print Assumptions c111_none_refuted.

(** A text of several lines spoils the layout: the indentation of the source
    stays in the report. *)
Lemma meet_left a : meet a "" = "".
Proof. destruct a; reflexivity. Qed.
Lemma meet_none l : forall a, In "" (a :: l) -> fold_left meet l a = "".
Proof.
  assert (E : forall l, fold_left meet l "" = "") by (induction l0 as [|x l0 IH]; [reflexivity|exact IH]).
  induction l as [|x l IH]; intros a [->|H]; [reflexivity|destruct H|apply E|]. cbn [fold_left]. destruct H as [->|H]; [rewrite meet_left; apply E|]. apply IH. now right.
Qed.
Lemma lines_join s t : lines (s ++ newline ++ t)%string = lines s ++ lines t.
Proof.
  induction s as [|c s IH]; [reflexivity|]. cbn [append lines]. destruct (Ascii.eqb c nl); [cbn [app]; now rewrite IH|]. rewrite IH.
  destruct (lines s) as [|l ls] eqn:E; [now apply lines_nonempty in E|]. reflexivity.
Qed.
Lemma lines_concat ls : ls <> [] -> lines (unlines ls) = concat (map lines ls).
Proof.
  induction ls as [|s ls IH]; [contradiction|]. intros _. destruct ls as [|r ls]; [cbn [unlines String.concat map concat]; now rewrite app_nil_r|].
  rewrite unlines_cons by discriminate. rewrite lines_join, IH by discriminate. reflexivity.
Qed.
Lemma dedent_flat text l : In l (lines text) -> (exists c s, l = String c s /\ space c = false) -> lines (dedent text) = map cleared (lines text).
Proof.
  intros I (c & s & -> & Hc). unfold dedent.
  assert (B : blank (String c s) = false) by (cbn [blank]; now rewrite Hc).
  assert (M : margin (map cleared (lines text)) = "").
  { unfold margin. assert (J : In "" (map indent (filter (fun l => negb (blank l)) (map cleared (lines text))))).
    { apply in_map_iff. exists (String c s). split; [cbn [indent]; now rewrite Hc|]. apply filter_In. split; [|now rewrite B]. apply in_map_iff. exists (String c s). split; [|exact I]. unfold cleared. now rewrite B. }
    destruct (map indent _) as [|a q]; [destruct J|]. now apply meet_none. }
  rewrite M. assert (E : map (stripped "") (map cleared (lines text)) = map cleared (lines text)) by (rewrite <- (map_id (map cleared (lines text))) at 2; apply map_ext; reflexivity).
  rewrite E. apply lines_unlines; [intros H; apply map_eq_nil in H; now apply lines_nonempty in H|].
  apply Forall_forall. intros x Hx. apply in_map_iff in Hx. destruct Hx as (y & <- & Hy). pose proof (lines_all text) as F. rewrite Forall_forall in F. unfold cleared. destruct (blank y); [exact Logic.I|now apply F].
Qed.
Theorem c111_newline_refuted : forall v s a c b,
  vi_shape v = Some s -> vi_filename v = Some (a ++ newline ++ String c b)%string -> c <> " "%char -> c <> "009"%char -> c <> nl ->
  exists t, variable_info v = Ok t /\ In "              Variable:" (lines t).
Proof.
  intros v s a c b Es Ef N1 N2 N3. unfold variable_info. rewrite Es. eexists. split; [reflexivity|].
  lazymatch goal with |- context [dedent (unlines ?l)] => set (ls := l) end.
  destruct (lines (String c b)) as [|y q] eqn:Eb; [now apply lines_nonempty in Eb|].
  assert (Y : exists r, y = String c r).
  { cbn [lines] in Eb. destruct (Ascii.eqb_spec c nl); [contradiction|]. destruct (lines b) as [|l l'] eqn:El; injection Eb as <- _; eauto. }
  destruct Y as (r & ->).
  assert (Sp : space c = false) by (unfold space; destruct (Ascii.eqb_spec c " "), (Ascii.eqb_spec c "009"); try contradiction; reflexivity).
  rewrite (dedent_flat _ (String c r)).
  - apply in_map_iff. exists (fourteen ++ "Variable:")%string. split; [reflexivity|]. unfold ls. rewrite lines_concat by discriminate. right. left. reflexivity.
  - unfold ls. rewrite lines_concat by discriminate. apply in_concat. eexists. split; [cbn [map]; right; right; left; reflexivity|].
    rewrite Ef. cbn [show]. change (In (String c r) (lines ((fourteen ++ "  filename: ") ++ a ++ newline ++ String c b)%string)). rewrite <- sapp_assoc, lines_join, Eb. apply in_or_app. right. now left.
  - eauto.
Qed.
Print Assumptions c111_newline_refuted.

(** ** Grids *)
Theorem c111_mesh : forall name nodes n k bounds, OneLine name ->
  exists t, mesh_info name nodes (Some (n, k)) bounds = Ok t /\
    LinesOf t (["UGrid object: " ++ name; "Number of nodes: " ++ decimal nodes; "Number of faces: " ++ decimal n ++ " with " ++ decimal k ++ " vertices per face"]%string ++
      match bounds with Some b => [("Number of boundaries: " ++ decimal b)%string] | None => [] end).
Proof.
  intros name nodes n k bounds H. eexists. split; [reflexivity|]. apply lines_of_unlines; [destruct bounds; discriminate|].
  pose proof (decimal_one nodes). pose proof (decimal_one n). pose proof (decimal_one k). apply Forall_app. split; [all_lines|]. destruct bounds as [b|]; [|constructor]. pose proof (decimal_one b). all_lines.
Qed.
Print Assumptions c111_mesh.
(** The numbers can be read off. *)
Theorem c111_mesh_reads : forall name nodes n k bounds name' nodes' n' k' bounds' t, OneLine name -> OneLine name' ->
  mesh_info name nodes (Some (n, k)) bounds = Ok t -> mesh_info name' nodes' (Some (n', k')) bounds' = Ok t ->
  name = name' /\ nodes = nodes' /\ n = n' /\ k = k' /\ bounds = bounds'.
Proof.
  intros name nodes n k bounds name' nodes' n' k' bounds' t H H' E E'.
  destruct (c111_mesh name nodes n k bounds H) as (u & Eu & L). destruct (c111_mesh name' nodes' n' k' bounds' H') as (u' & Eu' & L').
  assert (u = t) by congruence. assert (u' = t) by congruence. subst u u'. apply lines_of_lines in L, L'. rewrite L in L'. clear - L'. cbn [app append] in L'. injection L' as E1 E2 E3 E4.
  assert (W : forall a b, (decimal n ++ String a b)%string = (decimal n ++ String a b)%string) by reflexivity. clear W.
  destruct (before_stop P0' _ _ _ _ _ _ (decimal_digits n) (decimal_digits n') (fun X => X eq_refl) (fun X => X eq_refl) E3) as (En & _ & E5). apply decimal_inj in E2, En. subst.
  injection E5 as E5. destruct (before_stop P0' _ _ _ _ _ _ (decimal_digits k) (decimal_digits k') (fun X => X eq_refl) (fun X => X eq_refl) E5) as (Ek & _ & _). apply decimal_inj in Ek. subst.
  repeat split. destruct bounds as [b|], bounds' as [b'|]; try discriminate; auto. injection E4 as E4. apply decimal_inj in E4. now subst.
Qed.
Print Assumptions c111_mesh_reads.
(** A mesh without faces has no report. *)
Theorem c111_no_faces_refuted : forall name nodes bounds, mesh_info name nodes None bounds = Err TypeError.
Proof. reflexivity. Qed.
Print Assumptions c111_no_faces_refuted.

Theorem c111_staggered : forall vars, exists names, Shown vars names /\
  staggered_info vars = ("SGrid object with defined:" ++ newline ++ "    " ++ String.concat ", " names)%string.
Proof.
  intros vars. eexists. split; [|reflexivity]. induction vars as [|[n b] vars IH]; [constructor|]. cbn [filter fst snd map].
  destruct (private n) eqn:P; cbn [negb andb].
  - destruct n as [|c n]; [discriminate|]. cbn [private] in P. apply Ascii.eqb_eq in P. subst c. now constructor.
  - destruct b; [|now constructor]. cbn [map fst]. constructor; [|exact IH]. intros r ->. discriminate.
Qed.
Print Assumptions c111_staggered.

(** ** Datasets *)
(** Which datasets report at all: a regular grid, a mesh without faces, a
    vector or a variable without data prevents it. *)
Theorem c111_dataset_answers : forall filename grid vars attrs,
  (exists t, dataset_info filename grid vars attrs = Ok t) <-> GridReports grid /\ forall k x, In (k, x) vars -> Reports x.
Proof.
  intros filename grid vars attrs. unfold dataset_info. split.
  - intros (t & H). apply bind_ok in H. destruct H as (infos & Hi & H). apply bind_ok in H. destruct H as (g & Hg & _). split.
    + destruct grid as [name nodes [[n k]|] bounds|l| |]; try discriminate; [left; eauto 10|right; eauto].
    + intros k x Ix. destruct (mapM_ok _ _ _ Hi) as [_ K]. apply In_nth_error in Ix. destruct Ix as (i & Ix). destruct (K i _ Ix) as (y & _ & E). cbn [snd] in E.
      destruct x as [v|]; [|discriminate]. exists v. split; [reflexivity|]. cbn [item_info] in E. unfold variable_info in E. destruct (vi_shape v); discriminate.
  - intros [G V]. destruct (mapM_rows_in (fun kv : string * iinfo => item_info (snd kv)) (fun _ _ => True) vars) as (infos & Hi & _).
    { intros [k x] Ix. destruct (V k x Ix) as (v & -> & N). cbn [snd item_info]. unfold variable_info. destruct (vi_shape v); [eauto|contradiction]. }
    rewrite Hi. cbn [bind]. destruct G as [(name & nodes & n & k & bounds & ->)|(l & ->)]; cbn [grid_info mesh_info bind]; eauto.
Qed.
Print Assumptions c111_dataset_answers.
Theorem c111_regular_refuted : forall filename vars attrs, (forall k x, In (k, x) vars -> Reports x) -> dataset_info filename GRegular vars attrs = Err AttributeError.
Proof.
  intros filename vars attrs V. unfold dataset_info. destruct (mapM_rows_in (fun kv : string * iinfo => item_info (snd kv)) (fun _ _ => True) vars) as (infos & Hi & _).
  { intros [k x] Ix. destruct (V k x Ix) as (v & -> & N). cbn [snd item_info]. unfold variable_info. destruct (vi_shape v); [eauto|contradiction]. }
  rewrite Hi. reflexivity.
Qed.
Print Assumptions c111_regular_refuted.
Theorem c111_vector_refuted : forall filename grid vars attrs, (exists k, In (k, IVector) vars) -> dataset_info filename grid vars attrs = Err AttributeError.
Proof.
  intros filename grid vars attrs (k & H). unfold dataset_info. rewrite (mapM_err _ AttributeError); [reflexivity| |].
  - intros [k' x] _. cbn [snd]. destruct x as [v|]; [|auto]. cbn [item_info]. unfold variable_info. destruct (vi_shape v); eauto.
  - exists (k, IVector). auto.
Qed.
Print Assumptions c111_vector_refuted.

(** The lines of the report: the variables one after another, each followed by a
    line of blanks but the last. *)
Definition body_of (x : iinfo) : list string :=
  match x with
  | IVariable v => variable_lines (vi_filename v) (vi_varname v) (dget (vi_attrs v) "standard_name") (vi_units v) (vi_grid v) (match vi_shape v with Some s => show_shape s | None => "" end)
  | IVector => []
  end.
Definition variables_lines (bodies : list (list string)) : list string := concat (map (fun b => eight :: b) bodies) ++ [""].
Lemma infos_lines vars : (forall k x, In (k, x) vars -> Reports x) -> (forall k v, In (k, IVariable v) vars -> PlainVariable v) ->
  exists infos, mapM (fun kv : string * iinfo => item_info (snd kv)) vars = Ok infos /\
    lines (String.concat "" (map (fun v => (eight ++ v)%string) infos)) = variables_lines (map (fun kv => body_of (snd kv)) vars).
Proof.
  induction vars as [|[k x] vars IH]; intros R P.
  - exists []. split; reflexivity.
  - destruct IH as (infos & E & L); [intros; eapply R; right; eauto|intros; eapply P; right; eauto|]. destruct (R k x (or_introl eq_refl)) as (v & -> & N).
    pose proof (P k v (or_introl eq_refl)) as Pv. destruct (vi_shape v) as [s|] eqn:Es; [|contradiction]. destruct (variable_text v s Pv Es) as [T F].
    eexists. cbn [mapM snd item_info]. rewrite T. cbn [bind]. rewrite E. cbn [bind]. split; [reflexivity|].
    cbn [map body_of snd]. rewrite Es. revert F. generalize (variable_lines (vi_filename v) (vi_varname v) (dget (vi_attrs v) "standard_name") (vi_units v) (vi_grid v) (show_shape s)). intros body F.
    assert (L1 : lines (eight ++ unlines ("" :: body ++ [""])%list)%string = (eight :: body) ++ [""]).
    { assert (X : (eight ++ unlines ("" :: body ++ [""])%list)%string = unlines (eight :: body ++ [""])) by (rewrite !unlines_cons by (destruct body; discriminate); reflexivity).
      rewrite X. apply lines_unlines; [discriminate|]. constructor; [repeat split; discriminate|]. apply Forall_app. split; [exact F|repeat constructor]. }
    assert (C : forall a (l : list string), String.concat "" (a :: l) = (a ++ String.concat "" l)%string) by (intros a [|b l]; [cbn; now rewrite sapp_nil|reflexivity]).
    rewrite C. unfold variables_lines in L |- *. cbn [map concat]. destruct (concat (map (fun b => eight :: b) (map (fun kv => body_of (snd kv)) vars)) ++ [""]) as [|y lb] eqn:Y; [destruct (concat _); discriminate|].
    rewrite (lines_app _ _ _ _ _ _ L1 L). rewrite <- app_assoc, Y. cbn [append app]. reflexivity.
Qed.
Theorem c111_dataset : forall filename grid vars attrs g,
  OneLineOf filename -> grid_info grid = Ok g -> (forall k x, In (k, x) vars -> Reports x) -> (forall k v, In (k, IVariable v) vars -> PlainVariable v) ->
  (forall k v, In (k, v) attrs -> OneLine k /\ OneLine v) ->
  exists t first rest, variables_lines (map (fun kv => body_of (snd kv)) vars) = first :: rest /\ dataset_info filename grid vars attrs = Ok t /\
    LinesOf t (["gridded.Dataset:"; "    filename: " ++ show filename; "    grid:"]%string ++ map (fun l => (eight ++ l)%string) (lines g) ++
      ("    variables: " ++ eight ++ first)%string :: map (fun l => (eight ++ l)%string) rest ++
      "    attributes:" :: match attrs with [] => [""] | _ => map (fun kv => (eight ++ fst kv ++ ": " ++ snd kv)%string) attrs end).
Proof.
  intros filename grid vars attrs g Hf Hg R P A. destruct (infos_lines vars R P) as (infos & E & L). unfold dataset_info. rewrite E, Hg. cbn [bind].
  unfold indented at 2. rewrite L. destruct (variables_lines _) as [|first rest] eqn:V; [unfold variables_lines in V; destruct (concat _); discriminate|].
  eexists _, first, rest. split; [reflexivity|]. split; [reflexivity|].
  assert (Ov : Forall OneLine (first :: rest)) by (rewrite <- L; apply lines_all). apply show_one in Hf.
  assert (O8 : forall l, OneLine l -> OneLine (eight ++ l)) by (intros l H; apply one_app; split; [repeat split; discriminate|exact H]).
  assert (F8 : forall ls, Forall OneLine ls -> Forall OneLine (map (fun l => (eight ++ l)%string) ls)) by (intros ls H; apply Forall_map; revert H; apply Forall_impl, O8).
  set (ats := match attrs with [] => [""] | _ => map (fun kv => (eight ++ fst kv ++ ": " ++ snd kv)%string) attrs end).
  assert (Oa : Forall OneLine ats).
  { unfold ats. destruct attrs as [|kv attrs]; [repeat constructor|]. apply Forall_map, Forall_forall. intros [k v] I. destruct (A k v I) as [Hk Hv]. apply O8. cbn [fst snd]. rewrite !one_app. repeat split; try discriminate; auto. }
  assert (Ea : unlines (map (fun kv => (eight ++ fst kv ++ ": " ++ snd kv)%string) attrs) = unlines ats) by (unfold ats; destruct attrs; reflexivity). rewrite Ea.
  assert (Na : ats <> []) by (unfold ats; destruct attrs; discriminate). clearbody ats. clear Ea.
  assert (U : forall (a b : list string), a <> [] -> b <> [] -> unlines (a ++ b) = (unlines a ++ newline ++ unlines b)%string).
  { induction a as [|x a IH]; [contradiction|]. intros b _ Nb. destruct a as [|y a]; [cbn [app]; now rewrite unlines_cons|].
    cbn [app] in *. rewrite (unlines_cons x (y :: a ++ b)) by discriminate. rewrite IH by (auto; discriminate). rewrite (unlines_cons x (y :: a)) by discriminate. now rewrite !sapp_assoc. }
  assert (Q : forall p (a : string) l, (p ++ unlines (a :: l))%string = unlines ((p ++ a)%string :: l)).
  { intros p a [|b l]; [reflexivity|]. rewrite (unlines_cons a), (unlines_cons (p ++ a)%string) by discriminate. now rewrite sapp_assoc. }
  cbn [map]. rewrite Q. unfold indented.
  lazymatch goal with |- LinesOf ?t ?ls => assert (X : t = unlines ls) end.
  { set (G := map (fun l => (eight ++ l)%string) (lines g)). assert (NG : G <> []) by (intros H; apply map_eq_nil in H; now apply lines_nonempty in H).
    set (W := ("    variables: " ++ eight ++ first)%string :: map (fun l => (eight ++ l)%string) rest).
    change (("    variables: " ++ eight ++ first)%string :: map (fun l => (eight ++ l)%string) rest ++ "    attributes:" :: ats) with (W ++ "    attributes:" :: ats).
    rewrite !U; try discriminate; try assumption.
    - rewrite (unlines_cons _ ats Na). rewrite !unlines_cons by discriminate. cbn [unlines String.concat]. rewrite !sapp_assoc. reflexivity.
    - destruct G; discriminate. }
  rewrite X. apply lines_of_unlines; [discriminate|]. apply Forall_app. split; [all_lines|]. apply Forall_app. split; [apply F8, lines_all|].
  inversion Ov as [|? ? O1 O2]; subst. constructor; [rewrite one_app; split; [repeat split; discriminate|apply O8, O1]|]. apply Forall_app. split; [now apply F8|]. constructor; [repeat split; discriminate|exact Oa].
Qed.
Print Assumptions c111_dataset.

(** ** Texts of variables in files *)
Theorem c111_strings : forall name location n attrs,
  ((exists t, uvar_str name location n attrs = Ok t) <-> name <> None /\ location <> None) /\
  ((exists t, svar_str name location = Ok t) <-> name <> None /\ location <> None) /\
  (forall a l, name = Some a -> location = Some l ->
    uvar_str name location n attrs = Ok ("UVar object: " ++ a ++ ", on the " ++ l ++ "s, and " ++ decimal n ++ " data points" ++ newline ++ "Attributes: " ++ attrs)%string /\
    svar_str name location = Ok ("SGridVariable object: " ++ a ++ ", on the " ++ l ++ "s")%string).
Proof.
  intros [a|] [l|] n attrs; unfold uvar_str, svar_str; cbn [formatted bind]; (split; [split; [intros (t & H); try discriminate; split; discriminate|intros [H1 H2]; try contradiction; eauto]|]);
    (split; [split; [intros (t & H); try discriminate; split; discriminate|intros [H1 H2]; try contradiction; eauto]|]); intros a' l' E1 E2; try discriminate.
  injection E1 as <-. injection E2 as <-. split; [|reflexivity]. f_equal. unfold unlines. cbn [String.concat]. now rewrite !sapp_assoc.
Qed.
Print Assumptions c111_strings.

(** ** Helpers *)
Section Equal.
  Context {A : Type} (eqb : A -> A -> bool) (spec : forall x y, eqb x y = true <-> x = y).
  Lemma shifted_equal (l : list A) : (Forall (fun p => fst p = snd p) (combine (tl l) (removelast l))) <-> forall x y, In x l -> In y l -> x = y.
  Proof.
    destruct l as [|a l]; [split; [intros _ x y []|constructor]|]. revert a. induction l as [|b l IH]; intros a.
    - split; [|constructor]. intros _ x y [<-|[]] [<-|[]]. reflexivity.
    - change (Forall (fun p => fst p = snd p) ((b, a) :: combine (tl (b :: l)) (removelast (b :: l))) <-> (forall x y, In x (a :: b :: l) -> In y (a :: b :: l) -> x = y)).
      rewrite Forall_cons_iff, IH. cbn [fst snd]. split.
      + intros [E H] x y [<-|Hx] [<-|Hy]; auto; subst; [apply H; [now left|exact Hy]|apply H; [exact Hx|now left]].
      + intros H. split; [apply H; [right; now left|now left]|]. intros x y Hx Hy. apply H; now right.
  Qed.
  Lemma list_eqb_combine : forall a b, length a = length b -> (list_eqb eqb a b = true <-> Forall (fun p => fst p = snd p) (combine a b)).
  Proof.
    induction a as [|x a IH]; intros [|y b] L; try discriminate; [split; [constructor|reflexivity]|]. cbn [list_eqb combine]. rewrite Forall_cons_iff, andb_true_iff, spec, IH by (cbn in L; lia). reflexivity.
  Qed.
  Lemma tl_removelast (l : list A) : length (tl l) = length (removelast l).
  Proof. destruct l as [|a l]; [reflexivity|]. cbn [tl]. revert a. induction l as [|b l IH]; intros a; [reflexivity|]. change (S (length l) = S (length (removelast (b :: l)))). f_equal. apply IH. Qed.
  (** Of lists: whether all elements are the same. *)
  Lemma equal_list l b : check_element_equal eqb false l = One b -> (b = true <-> forall x y, In x l -> In y l -> x = y).
  Proof. unfold check_element_equal. intros H. injection H as <-. rewrite list_eqb_combine by apply tl_removelast. apply shifted_equal. Qed.
  Lemma equal_array l : exists bs, check_element_equal eqb true l = Each bs /\ length bs = length l - 1 /\ (Forall (fun b => b = true) bs <-> forall x y, In x l -> In y l -> x = y).
  Proof.
    eexists. split; [reflexivity|]. split; [rewrite map_length, combine_length, <- tl_removelast, Nat.min_id; destruct l; cbn; lia|].
    rewrite <- shifted_equal, Forall_map. split; apply Forall_impl; intros p; apply spec.
  Qed.
End Equal.
(** Lists are answered by one truth value, arrays by one for each neighbouring
    pair. *)
Theorem c111_equal_lists : forall (A : Type) (eqb : A -> A -> bool), (forall x y, eqb x y = true <-> x = y) -> forall l,
  exists b, check_element_equal eqb false l = One b /\ (b = true <-> forall x y, In x l -> In y l -> x = y).
Proof. intros A eqb spec l. eexists. split; [reflexivity|]. exact (equal_list eqb spec l _ eq_refl). Qed.
Print Assumptions c111_equal_lists.
Theorem c111_equal_arrays_refuted : forall (A : Type) (eqb : A -> A -> bool), (forall x y, eqb x y = true <-> x = y) -> forall l,
  (forall b, check_element_equal eqb true l <> One b) /\
  exists bs, check_element_equal eqb true l = Each bs /\ length bs = length l - 1 /\ (Forall (fun b => b = true) bs <-> forall x y, In x l -> In y l -> x = y).
Proof. intros A eqb spec l. split; [discriminate|]. apply (equal_array eqb spec). Qed.
Print Assumptions c111_equal_arrays_refuted.
Theorem c111_arraylike : forall fresh array_has o, (forall a, In a must_have -> In a array_has) ->
  (isarraylike o = true <-> forall a, In a ["dtype"; "shape"; "ndim"; "__len__"; "__getitem__"; "__getattribute__"] -> In a (po_has o)) /\
  isarraylike (asarraylike fresh array_has o) = true /\
  (isarraylike o = true -> asarraylike fresh array_has o = o) /\ (isarraylike o = false -> po_id (asarraylike fresh array_has o) = fresh).
Proof.
  intros fresh array_has o H. assert (K : forall p, isarraylike p = true <-> forall a, In a must_have -> In a (po_has p)).
  { intros p. unfold isarraylike. rewrite forallb_forall. split; intros Q a I; [now apply isin_in, Q|now apply isin_in, Q]. }
  split; [apply K|]. unfold asarraylike. destruct (isarraylike o) eqn:E; [repeat split; auto; discriminate|]. split; [now apply K|]. split; [discriminate|reflexivity].
Qed.
Print Assumptions c111_arraylike.

(** ** Examples *)
Definition c111_temp : vinfo := mkVinfo (Some "sea.nc") (Some "temp") [("standard_name", "sea_water_temperature"); ("long_name", "temp")] (Some "temp") "times" (Some "C") (Some "node") "<Grid_U>" "ndarray" (Some [12; 40; 6]).
Example c111_variable_example : exists t, variable_info c111_temp = Ok t /\
  LinesOf t [""; "Variable:"; "  filename: sea.nc"; "  varname: temp"; "  standard name: sea_water_temperature"; "  units: C"; "  grid: <Grid_U>"; "  data shape: (12, 40, 6)"; ""] /\ PlainVariable c111_temp.
Proof.
  assert (P : PlainVariable c111_temp).
  { constructor; try (intros s H; injection H as <-; repeat split; discriminate); [|repeat split; discriminate]. intros n s [H|[H|[]]]; injection H as <- <-; repeat split; discriminate. }
  destruct (c111_variable c111_temp [12; 40; 6] P eq_refl) as (t & E & L). eauto.
Qed.
Example c111_dataset_example : exists t, dataset_info (Some "sea.nc") (GMesh "mesh" 40 (Some (62, 3)) (Some 16)) [("temp", IVariable c111_temp)] [("title", "demo")] = Ok t /\
  lines t = ["gridded.Dataset:"; "    filename: sea.nc"; "    grid:"; "        UGrid object: mesh"; "        Number of nodes: 40"; "        Number of faces: 62 with 3 vertices per face";
    "        Number of boundaries: 16"; "    variables:                 "; "        Variable:"; "          filename: sea.nc"; "          varname: temp"; "          standard name: sea_water_temperature";
    "          units: C"; "          grid: <Grid_U>"; "          data shape: (12, 40, 6)"; "        "; "    attributes:"; "        title: demo"].
Proof. eexists. split; vm_compute; reflexivity. Qed.
Example c111_time_example : exists t, time_info decimal (Some "sea.nc") None [3; 5; 9] = Ok t /\
  lines t = [""; "Time object:"; "  filename: sea.nc"; "  varname: None"; "  first timestep: 3"; "  final timestep: 9"; "  number of timesteps: 3"; ""].
Proof. eexists. split; vm_compute; reflexivity. Qed.
Example c111_staggered_example : staggered_info [("node_lon", true); ("_cache", true); ("edge1_lon", false); ("node_mask", true)] = ("SGrid object with defined:" ++ newline ++ "    node_lon, node_mask")%string.
Proof. reflexivity. Qed.
Example c111_helpers_example : check_element_equal Nat.eqb false [3; 3; 3] = One true /\ check_element_equal Nat.eqb true [3; 3; 4] = Each [true; false] /\
  isarraylike (mkPobj 0 ["__len__"; "__getitem__"; "__getattribute__"]) = false.
Proof. repeat split. Qed.
