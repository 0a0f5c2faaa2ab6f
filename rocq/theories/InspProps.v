(** C100: the inspector window. *)
From Coq Require Import QArith Qabs Ascii String Lqa.
From Verif Require Import Common CommonProofs MaskModel DepthModel DepthProofs UGridModel UGridSpec UGridProofs SGridModel NLoadModel NLoadSpec NLoadProofs
  PlotModel PlotSpec PlotProofs InspModel InspSpec InspProofs.
Open Scope list_scope.
Open Scope nat_scope.

(** The window opens exactly for triangles over nodes; the log starts anew. *)
Lemma extent_ok nodes m : nodes <> [] -> exists x, max_extent nodes m = Ok x.
Proof.
  intros N. unfold max_extent. assert (N' : map shown nodes <> []) by (destruct nodes; [congruence|discriminate]).
  destruct (qmin_total (map fst (map shown nodes))) as (w & ->); [destruct (map shown nodes); [congruence|discriminate]|].
  destruct (qmax_total (map fst (map shown nodes))) as (e & ->); [destruct (map shown nodes); [congruence|discriminate]|].
  destruct (qmin_total (map snd (map shown nodes))) as (s & ->); [destruct (map shown nodes); [congruence|discriminate]|].
  destruct (qmax_total (map snd (map shown nodes))) as (n & ->); [destruct (map shown nodes); [congruence|discriminate]|]. cbn [bind]. eauto.
Qed.
Lemma triangles_iff nodes f : (match f with [] => false | _ => true end && forallb (fun r => length r =? 3) f &&
     forallb (fun x => (0 <=? x)%Z && (x <? Z.of_nat (length nodes))%Z) (concat f)) = true <-> Triangles nodes f.
Proof.
  unfold Triangles. rewrite !andb_true_iff, !forallb_forall. split.
  - intros ((A & B) & C). split; [destruct f; [discriminate|discriminate]|]. split.
    + apply Forall_forall. intros r Hr. apply Nat.eqb_eq. auto.
    + intros x Hx. specialize (C x Hx). apply andb_true_iff in C as (C1 & C2). lia.
  - intros (A & B & C). split; [split|].
    + destruct f; congruence.
    + intros r Hr. apply Nat.eqb_eq. unfold Rect in B. rewrite Forall_forall in B. auto.
    + intros x Hx. specialize (C x Hx). apply andb_true_iff. split; lia.
Qed.
Theorem c100_opens :
  forall nodes faces nv spill,
  fst (opened nodes faces nv spill) = [Names headers] /\
  (forall v, snd (opened nodes faces nv spill) = Ok v ->
     exists f, triangle_faces faces nv = Ok f /\ Triangles nodes f /\ v_log v = [Names headers] /\
       map snd (v_axes v) = Wire (map shown nodes) f :: match spill with Some p => [Spill p] | None => [] end) /\
  (forall f, triangle_faces faces nv = Ok f -> Triangles nodes f -> exists v, snd (opened nodes faces nv spill) = Ok v) /\
  (forall f, triangle_faces faces nv = Ok f -> ~ Triangles nodes f -> snd (opened nodes faces nv spill) = Err ValueError).
Proof.
  intros nodes faces nv spill. split; [reflexivity|]. unfold opened, draw_grid_lines. cbn [snd]. split; [|split].
  - intros v H. destruct (max_extent nodes (5 # 100)); [|discriminate]. cbn [bind] in H. destruct (triangle_faces faces nv) as [f|] eqn:F; [|discriminate]. cbn [bind] in H.
    exists f. destruct (_ && _ && _) eqn:C in H; [|discriminate]. apply triangles_iff in C. cbn [bind] in H. injection H as <-. split; [reflexivity|]. split; [exact C|].
    destruct spill; split; reflexivity.
  - intros f F T. assert (N : nodes <> []).
    { intros ->. destruct T as (A & B & C). destruct f as [|r f]; [congruence|]. inversion B as [|? ? Lr _]; subst. destruct r as [|x r]; [discriminate|]. specialize (C x (or_introl eq_refl)). cbn in C. lia. }
    destruct (extent_ok nodes (5 # 100) N) as (x & ->). cbn [bind]. rewrite F. cbn [bind]. apply triangles_iff in T. rewrite T. cbn [bind]. eauto.
  - intros f F T. destruct nodes as [|n ns]; [reflexivity|]. destruct (extent_ok (n :: ns) (5 # 100) ltac:(discriminate)) as (x & ->). cbn [bind]. rewrite F. cbn [bind].
    destruct (_ && _ && _) eqn:C; [|reflexivity]. apply triangles_iff in C. contradiction.
Qed.
Print Assumptions c100_opens.

Section Session.
  Context (locate : point -> option nat) (nodes : list point) (faces nv : option (list (list Z))) (f : list (list Z)).
  Context (HF : triangle_faces faces nv = Ok f) (HT : Triangles nodes f) (HL : forall p i, locate p = Some i -> i < length f).
  Lemma nodes_some : nodes <> [].
  Proof.
    clear HF HL. intros ->. destruct HT as (A & B & C). destruct f as [|r f']; [congruence|]. inversion B as [|? ? Lr _]; subst. destruct r as [|x r]; [discriminate|]. specialize (C x (or_introl eq_refl)). cbn in C. lia.
  Qed.
  Lemma asked_ok mn x y : qmin (map fst nodes) = Ok mn ->
    Asked nodes x y (if Qle_bool 0 mn && negb (Qle_bool 0 x) then (x + 360)%Q else x, y).
  Proof.
    intros Mn. destruct (qmin_ok _ _ Mn) as (I & L). apply in_map_iff in I as (n & En & Hn). unfold Asked.
    destruct (Qle_bool 0 mn) eqn:A, (Qle_bool 0 x) eqn:B; cbn [andb negb].
    - right. apply Qle_bool_iff in B. auto.
    - left. split; [|split; [|reflexivity]].
      + intros k Hk. apply Qle_bool_iff in A. specialize (L (fst k) (in_map fst _ _ Hk)). Lqa.lra.
      + apply Qnot_le_lt. intros C. apply Qle_bool_iff in C. congruence.
    - right. split; [|reflexivity]. right. now apply Qle_bool_iff.
    - right. split; [|reflexivity]. left. exists n. split; auto. rewrite En. apply Qnot_le_lt. intros C. apply Qle_bool_iff in C. congruence.
  Qed.
  Lemma click_ok base log0 e sel v : Inv base log0 sel v -> Forall Tri sel ->
    exists o v', Clicks locate nodes f e o /\
      on_click locate nodes faces nv e v = (v', match o with Some p => if p_saved p then None else Some RuntimeError | None => None end) /\
      Forall Tri (sel ++ match o with Some p => [p] | None => [] end) /\ Inv base log0 (sel ++ match o with Some p => [p] | None => [] end) v'.
  Proof.
    intros I T. unfold on_click. rewrite HF. cbn [bind].
    assert (Nothing : forall o : option pick, o = None -> Clicks locate nodes f e o ->
      exists o' v', Clicks locate nodes f e o' /\ (v, @None err) = (v', match o' with Some p => if p_saved p then None else Some RuntimeError | None => None end) /\
      Forall Tri (sel ++ match o' with Some p => [p] | None => [] end) /\ Inv base log0 (sel ++ match o' with Some p => [p] | None => [] end) v').
    { intros o -> C. exists None, v. rewrite app_nil_r. auto. }
    destruct (Nat.eqb_spec (ev_button e) 1) as [Eb|Nb]; [|apply (Nothing None eq_refl); now constructor].
    destruct (ev_x e) as [x|] eqn:Ex; [|apply (Nothing None eq_refl); apply OffAxes; auto].
    destruct (ev_y e) as [y|] eqn:Ey; [|apply (Nothing None eq_refl); apply OffAxes; auto].
    unfold index_query. destruct (qmin_total (map fst nodes)) as (mn & Mn). { pose proof nodes_some. destruct nodes; [congruence|discriminate]. }
    rewrite Mn. cbn [bind fst snd]. pose proof (asked_ok mn x y Mn) as As. set (p := (if _ && _ then _ else x, y)) in *.
    destruct (locate p) as [i|] eqn:Lo; [|apply (Nothing None eq_refl); now apply (OffGrid locate nodes f e x y p)].
    specialize (HL p i Lo). destruct (nth_error f i) as [row|] eqn:Er; [|apply nth_error_None in Er; lia].
    destruct HT as (_ & R & V). assert (Lr : length row = 3). { unfold Rect in R. rewrite Forall_forall in R. apply R. eapply nth_error_In; eauto. }
    destruct (mapM_forall2 (fun k => do p <- py_index nodes k; Ok (shown p)) (fun k q => exists n, IsNode nodes k n /\ OnMap n q) row) as (cs & Ec & Fc).
    { intros k Hk. destruct (is_node_exists nodes k) as (n & Hn). { apply V. apply in_concat. exists row. split; auto. eapply nth_error_In; eauto. }
      rewrite (py_index_is _ _ _ Hn). cbn [bind]. exists (shown n). split; [reflexivity|]. exists n. split; auto. apply shown_on_map. }
    rewrite Ec. cbn [bind]. set (pk := mkPick i row cs (x, y) (ev_disk e)).
    assert (Tp : Tri pk).
    { destruct (three_row row Lr) as (a & b & c & ->). inversion Fc as [|? q1 ? ? _ F1]; subst. inversion F1 as [|? q2 ? ? _ F2]; subst. inversion F2 as [|? q3 ? ? _ F3]; subst. inversion F3; subst.
      exists a, b, c, q1, q2, q3. split; reflexivity. }
    destruct (drawn base log0 sel v pk I T Tp) as (v' & E & I'). exists (Some pk), v'. split; [|split; [|split]].
    - now apply (OnFace locate nodes f e x y p i row cs).
    - exact E.
    - apply Forall_app. split; auto.
    - exact I'.
  Qed.
  Lemma clicks_ok base log0 es : forall sel v, Inv base log0 sel v -> Forall Tri sel ->
    exists os v', Forall2 (Clicks locate nodes f) es os /\
      clicks locate nodes faces nv es v = (v', map (fun o => match o with Some p => if p_saved p then None else Some RuntimeError | None => None end) os) /\
      Forall Tri (sel ++ chosen os) /\ Inv base log0 (sel ++ chosen os) v'.
  Proof.
    induction es as [|e es IH]; intros sel v I T.
    - exists [], v. cbn [chosen]. rewrite app_nil_r. split; [constructor|]. split; [reflexivity|]. auto.
    - destruct (click_ok base log0 e sel v I T) as (o & v1 & C & E & T1 & I1). destruct (IH _ v1 I1 T1) as (os & v' & Cs & Es & T' & I').
      exists (o :: os), v'. split; [constructor; auto|]. cbn [clicks map]. rewrite E, Es. split; [reflexivity|].
      assert (A : (sel ++ match o with Some p => [p] | None => [] end) ++ chosen os = sel ++ chosen (o :: os)) by (rewrite <- app_assoc; f_equal; destruct o; reflexivity).
      rewrite <- A. auto.
  Qed.
End Session.

Lemma middle_center q1 q2 q3 : Middle [q1; q2; q3] (center [q1; q2; q3]).
Proof. exists q1, q2, q3. split; [reflexivity|]. unfold center, qmean. cbn [map fst snd fold_right length]. split; cbn; field. Qed.
Lemma records_row p : Tri p -> Records p (Row (row_of p)).
Proof.
  intros (n1 & n2 & n3 & q1 & q2 & q3 & En & Eq). exists (row_of p). unfold row_of. rewrite En, Eq. split; [reflexivity|]. split; [reflexivity|]. split; [reflexivity|]. split.
  - exists (center [q1; q2; q3]). split; [apply middle_center|]. split; reflexivity.
  - intros k h hlat hlon n q Hk Hn Hq. destruct k as [|[|[|k]]]; cbn in Hk, Hn, Hq; [| | |destruct k; discriminate]; injection Hk as <- <- <-; injection Hn as <-; injection Hq as <-; repeat split; reflexivity.
Qed.
Lemma marks_of sel : Forall Tri sel -> Forall2 marked (filter p_saved sel) (kept_marks sel).
Proof.
  unfold kept_marks. induction 1 as [|p sel (n1 & n2 & n3 & q1 & q2 & q3 & En & Eq) _ IH]; [constructor|]. cbn [filter]. destruct (p_saved p); [|exact IH]. cbn [map]. constructor; [|exact IH].
  exists (center (p_corners p)). split; [reflexivity|]. rewrite Eq. apply middle_center.
Qed.
Lemma shows_inv base log0 sel v : Inv base log0 sel v -> Forall Tri sel -> Shows base sel (map snd (v_axes v)).
Proof.
  intros (_ & I) T. unfold Shows. destruct (rev sel) as [|p earlier] eqn:R; [apply I|].
  assert (sel = rev earlier ++ [p]) as Es by (apply (f_equal (@rev _)) in R; now rewrite rev_involutive in R). rewrite Es in T. apply Forall_app in T as (T1 & T2). inversion T2 as [|? ? Tp _]; subst.
  destruct I as (t & kept & _ & K & A & _). exists (kept_marks (rev earlier)), (map snd (over t p)). split; [now apply marks_of|]. split.
  - destruct Tp as (n1 & n2 & n3 & q1 & q2 & q3 & En & Eq). unfold highlighted, over. rewrite En, Eq. destruct (p_saved p); [|reflexivity].
    exists (Mark (center [q1; q2; q3])). split; [|reflexivity]. exists (center [q1; q2; q3]). split; [reflexivity|]. rewrite Eq. apply middle_center.
  - rewrite A, map_app, K. now rewrite app_assoc.
Qed.

(** Any history of clicks: each selects the face under it, what it selects is
    highlighted in place of the last selection, and is recorded if the disk allows;
    only a failing disk raises. *)
Theorem c100_session :
  forall locate nodes faces nv spill f v0 es,
  triangle_faces faces nv = Ok f -> snd (opened nodes faces nv spill) = Ok v0 -> (forall p i, locate p = Some i -> i < length f) ->
  exists os v errs, Forall2 (Clicks locate nodes f) es os /\ clicks locate nodes faces nv es v0 = (v, errs) /\
    errs = map (fun o => match o with Some p => if p_saved p then None else Some RuntimeError | None => None end) os /\
    (exists rows, v_log v = Names headers :: rows /\ Forall2 Records (filter p_saved (chosen os)) rows) /\
    Shows (map snd (v_axes v0)) (chosen os) (map snd (v_axes v)).
Proof.
  intros locate nodes faces nv spill f v0 es HF Ho HL. destruct (c100_opens nodes faces nv spill) as (_ & O & _). destruct (O v0 Ho) as (f' & F' & T & L0 & A0). assert (f' = f) as -> by congruence.
  assert (I0 : Inv (map snd (v_axes v0)) [Names headers] [] v0).
  { split; [now rewrite L0|]. cbn [rev]. split; [reflexivity|]. clear - Ho. unfold opened, draw_grid_lines in Ho. cbn [snd] in Ho. destruct (max_extent nodes (5 # 100)); [|discriminate]. cbn [bind] in Ho.
    destruct (triangle_faces faces nv); [|discriminate]. cbn [bind] in Ho. destruct (_ && _ && _) in Ho; [|discriminate]. cbn [bind] in Ho. injection Ho as <-.
    destruct spill; cbn; repeat split; repeat constructor. }
  destruct (clicks_ok locate nodes faces nv f HF T HL _ _ es [] v0 I0 (Forall_nil _)) as (os & v & C & E & Ts & Iv). cbn [app] in Ts, Iv.
  exists os, v. eexists. split; [exact C|]. split; [exact E|]. split; [reflexivity|]. split.
  - exists (map (fun p => Row (row_of p)) (filter p_saved (chosen os))). split; [apply Iv|]. clear - Ts. induction Ts as [|p l Tp _ IH]; [constructor|]. cbn [filter]. destruct (p_saved p); [|exact IH].
    cbn [map]. constructor; [now apply records_row|exact IH].
  - now apply (shows_inv _ [Names headers]).
Qed.
Print Assumptions c100_session.

(** The marked middle lies in the face as drawn. *)
Theorem c100_middle :
  forall locate nodes f e p c, Triangles nodes f -> Clicks locate nodes f e (Some p) -> Middle (p_corners p) c -> InDrawn nodes f c (p_face p).
Proof.
  intros locate nodes f e p c (_ & R & V) C (q1 & q2 & q3 & Eq & Mx & My). inversion C as [| | |x y pt i row cs _ _ _ _ _ Er Fc Ep]; subst. cbn [p_corners p_face] in *. subst cs.
  inversion Fc as [|n1 ? row1 ? H1 F1]; subst. inversion F1 as [|n2 ? row2 ? H2 F2]; subst. inversion F2 as [|n3 ? row3 ? H3 F3]; subst. inversion F3; subst.
  destruct H1 as (a & Ha & Ma), H2 as (b & Hb & Mb), H3 as (d & Hd & Md). exists a, b, d, q1, q2, q3. split; [exists n1, n2, n3; auto|]. repeat (split; [assumption|]).
  exists (1#3)%Q, (1#3)%Q, (1#3)%Q. repeat split; try Lqa.lra; discriminate.
Qed.
Print Assumptions c100_middle.

(** A log is never the file inspected. *)
Lemma app_inj_len a b c d : String.length a = String.length c -> (a ++ b = c ++ d)%string -> a = c /\ b = d.
Proof.
  revert c. induction a as [|x a IH]; intros [|y c] L E; try discriminate; [split; [reflexivity|exact E]|]. cbn in L, E. injection E as -> E. injection L as L.
  destruct (IH c L E) as (-> & ->). auto.
Qed.
Lemma last_dot_at s i : last_dot s = Some i -> exists r, s = (substring 0 i s ++ String "."%char r)%string.
Proof.
  revert i. induction s as [|c s IH]; intros i H; [discriminate|]. cbn [last_dot] in H. destruct (last_dot s) as [k|] eqn:E.
  - injection H as <-. destruct (IH k eq_refl) as (r & Hr). exists r. cbn. f_equal. exact Hr.
  - destruct (Ascii.eqb_spec c "."%char) as [->|]; [|discriminate]. injection H as <-. exists s. reflexivity.
Qed.
Theorem c100_log_apart : forall name, log_name name <> name.
Proof.
  intros name E. unfold log_name, stem in E. destruct (last_dot name) as [i|] eqn:D.
  - destruct (last_dot_at _ _ D) as (r & Hr). destruct (_ && _).
    + rewrite Hr in E at 2. apply app_inj_len in E as (_ & E); [discriminate|reflexivity].
    + apply (f_equal String.length) in E. revert E. generalize name. intros n E. induction n as [|c n IH]; [discriminate|]. apply IH. cbn in E. now injection E.
  - apply (f_equal String.length) in E. revert E. generalize name. intros n E. induction n as [|c n IH]; [discriminate|]. apply IH. cbn in E. now injection E.
Qed.
Print Assumptions c100_log_apart.
(** Its name: that of the file without its suffix, and an ending of its own. *)
Fixpoint Dotless (s : string) : Prop := match s with EmptyString => True | String c r => c <> "."%char /\ Dotless r end.
Lemma dotless_none s : Dotless s -> last_dot s = None.
Proof. induction s as [|c s IH]; [reflexivity|]. cbn [Dotless last_dot]. intros (N & D). rewrite (IH D). destruct (Ascii.eqb_spec c "."%char); [contradiction|reflexivity]. Qed.
Lemma last_dot_app base ext : Dotless ext -> last_dot (base ++ String "."%char ext)%string = Some (String.length base).
Proof. intros D. induction base as [|c base IH]; cbn [String.append last_dot String.length]; [rewrite (dotless_none _ D); reflexivity|rewrite IH; reflexivity]. Qed.
Lemma substring_app base r : substring 0 (String.length base) (base ++ r)%string = base.
Proof. induction base as [|c base IH]; cbn; [destruct r; reflexivity|rewrite IH; reflexivity]. Qed.
Theorem c100_log_name : forall base ext, Dotless ext ->
  (base <> EmptyString -> ext <> EmptyString -> log_name (base ++ "." ++ ext)%string = (base ++ "_selected_cell.csv")%string) /\
  log_name ext = (ext ++ "_selected_cell.csv")%string.
Proof.
  intros base ext D. split.
  - intros Nb Ne. unfold log_name, stem. change ("." ++ ext)%string with (String "."%char ext). rewrite (last_dot_app base ext D).
    assert (L : String.length (base ++ String "."%char ext)%string = String.length base + S (String.length ext)) by (clear; induction base as [|c b IH]; cbn; [reflexivity|now rewrite IH]).
    rewrite L. destruct base as [|c b]; [congruence|]. destruct ext as [|c' e]; [congruence|].
    replace (0 <? String.length (String c b)) with true by reflexivity.
    destruct (Nat.ltb_spec (String.length (String c b)) (String.length (String c b) + S (String.length (String c' e)) - 1)) as [_|B]; [|cbn [String.length] in B; lia].
    cbn [andb]. now rewrite substring_app.
  - unfold log_name, stem. now rewrite (dotless_none _ D).
Qed.
Print Assumptions c100_log_name.
Example c100_log_name_example : log_name "tides.2024.nc" = "tides.2024_selected_cell.csv"%string.
Proof. apply (c100_log_name "tides.2024" "nc"); [repeat split; discriminate|discriminate|discriminate]. Qed.
(** But it can be the log of another file of the directory. *)
Theorem c100_log_shared_refuted : exists a b, a <> b /\ log_name a = log_name b.
Proof. exists "tides.nc"%string, "tides.nc4"%string. split; [discriminate|reflexivity]. Qed.
Print Assumptions c100_log_shared_refuted.

(** ** Two faces over four nodes, a click on each *)
Definition c100_nodes : list point := [(200, 0); (203, 0); (200, 3); (203, 3)]%Q.
Definition c100_faces : list (list Z) := [[0; 1; 2]; [1; 3; 2]]%Z.
Definition c100_locate (p : point) : option nat := if Qle_bool (fst p + snd p) 203 then Some 0 else if Qle_bool (fst p) 203 then Some 1 else None.
Definition c100_at (x y : Q) : event := mkEvent 1 (Some x) (Some y) true.
Definition c100_clicks : list event := [c100_at (-159) 1; mkEvent 3 (Some (-159)%Q) (Some 1%Q) true; mkEvent 1 None (Some 1%Q) true; c100_at (-158) 2; c100_at (-150) 2].
Definition c100_start : viewer := mkViewer [Names headers] [(0, Wire (map shown c100_nodes) c100_faces)] 1 None None [].
Example c100_open_example : snd (opened c100_nodes (Some c100_faces) None None) = Ok c100_start.
Proof. reflexivity. Qed.
Lemma c100_located p i : c100_locate p = Some i -> i < length c100_faces.
Proof. unfold c100_locate. repeat destruct (Qle_bool _ _); intros H; try discriminate; injection H as <-; cbn; lia. Qed.
Example c100_example :
  exists v, clicks c100_locate c100_nodes (Some c100_faces) None c100_clicks c100_start = (v, [None; None; None; None; None]) /\
  length (v_log v) = 3 /\
  (exists r, nth_error (v_log v) 2 = Some (Row r) /\ under "nele" headers r = Some (EInt 1) /\ under "node2" headers r = Some (EInt 3) /\ under "node2_lon" headers r = Some (ENum (-157)%Q)) /\
  nth_error (map snd (v_axes v)) 2 = Some (Patch [(-157, 0); (-157, 3); (-160, 3)]%Q) /\ length (v_axes v) = 9.
Proof. eexists. split; [vm_compute; reflexivity|]. vm_compute. repeat split. eexists. repeat split. Qed.

(** The mark of a face stays when another is selected. *)
Theorem c100_marks_stay_refuted :
  exists locate nodes f v0 e1 e2 v p1 p2, snd (opened nodes (Some f) None None) = Ok v0 /\ (forall p i, locate p = Some i -> i < length f) /\
  Clicks locate nodes f e1 (Some p1) /\ Clicks locate nodes f e2 (Some p2) /\ p_face p1 <> p_face p2 /\
  fst (clicks locate nodes (Some f) None [e1; e2] v0) = v /\ exists a, In a (map snd (v_axes v)) /\ marked p1 a.
Proof.
  exists c100_locate, c100_nodes, c100_faces, c100_start, (c100_at (-159) 1), (c100_at (-158) 2). eexists.
  exists (mkPick 0 [0; 1; 2]%Z [(-160, 0); (-157, 0); (-160, 3)]%Q (-159, 1)%Q true), (mkPick 1 [1; 3; 2]%Z [(-157, 0); (-157, 3); (-160, 3)]%Q (-158, 2)%Q true).
  assert (Nn : forall n, In n c100_nodes -> (0 <= fst n)%Q) by (intros n Hn; cbn in Hn; destruct Hn as [<-|[<-|[<-|[<-|[]]]]]; cbn; discriminate).
  assert (On : forall k a q, nth_error c100_nodes k = Some a -> shown a = q -> exists n, IsNode c100_nodes (Z.of_nat k) n /\ OnMap n q).
  { intros k a q H <-. exists a. split; [split; [lia|now rewrite Nat2Z.id]|]. apply shown_on_map. }
  split; [reflexivity|]. split; [apply c100_located|]. split; [|split; [|split; [|split]]].
  - apply (OnFace c100_locate c100_nodes c100_faces (c100_at (-159) 1) (-159)%Q 1%Q ((-159) + 360, 1)%Q 0); try reflexivity; [left; split; [exact Nn|split; [reflexivity|reflexivity]]|].
    repeat constructor; [apply (On 0 (200, 0)%Q)|apply (On 1 (203, 0)%Q)|apply (On 2 (200, 3)%Q)]; reflexivity.
  - apply (OnFace c100_locate c100_nodes c100_faces (c100_at (-158) 2) (-158)%Q 2%Q ((-158) + 360, 2)%Q 1); try reflexivity; [left; split; [exact Nn|split; [reflexivity|reflexivity]]|].
    repeat constructor; [apply (On 1 (203, 0)%Q)|apply (On 3 (203, 3)%Q)|apply (On 2 (200, 3)%Q)]; reflexivity.
  - discriminate.
  - reflexivity.
  - exists (Mark (center [(-160, 0); (-157, 0); (-160, 3)]%Q)). split; [vm_compute; auto|]. exists (center [(-160, 0); (-157, 0); (-160, 3)]%Q). split; [reflexivity|]. apply middle_center.
Qed.
Print Assumptions c100_marks_stay_refuted.

(** The spill is drawn at its longitude as given, the mesh around it is not. *)
Theorem c100_spill_refuted :
  exists nodes f spill v, InFace nodes f spill 0 /\ snd (opened nodes (Some f) None (Some spill)) = Ok v /\
  In (Spill spill) (map snd (v_axes v)) /\ ~ InDrawn nodes f spill 0.
Proof.
  exists c100_nodes, c100_faces, (201, 1)%Q. eexists. split; [|split; [reflexivity|split; [cbn; auto|]]].
  - exists (200, 0)%Q, (203, 0)%Q, (200, 3)%Q. split; [exists 0%Z, 1%Z, 2%Z; repeat split; discriminate|]. exists (1#3)%Q, (1#3)%Q, (1#3)%Q. repeat split; try discriminate.
  - intros (a & b & c & a' & b' & c' & (x & y & z & Er & (_ & Ha) & (_ & Hb) & (_ & Hc)) & Ma & Mb & Mc & T). cbn in Er. injection Er as <- <- <-. cbn in Ha, Hb, Hc. injection Ha as <-. injection Hb as <-. injection Hc as <-.
    apply on_map_fun in Ma, Mb, Mc. subst a' b' c'. pose proof (triangle_le _ _ _ _ 0 T) as L. cbn in L. specialize (L ltac:(discriminate) ltac:(discriminate) ltac:(discriminate)). Lqa.lra.
Qed.
Print Assumptions c100_spill_refuted.

(** The middle of a face across the 180th meridian is recorded far from the face. *)
Theorem c100_middle_refuted :
  exists locate nodes f v0 e v r lon, snd (opened nodes (Some f) None None) = Ok v0 /\ Locates nodes f locate /\
  fst (clicks locate nodes (Some f) None [e] v0) = v /\ nth_error (v_log v) 1 = Some (Row r) /\ under "nele_lon" headers r = Some (ENum lon) /\
  forall p q, InFace nodes f p 0 -> OnMap p q -> ~ (Qabs.Qabs (fst q - lon) < 100)%Q.
Proof.
  set (nodes := [(179, 0); (181, 0); (180, 2)]%Q). set (f := [[0; 1; 2]%Z]).
  set (inside := fun p : point => Qle_bool 0 (snd p) && Qle_bool (snd p) (2 * (fst p - 179)) && Qle_bool (snd p) (2 * (181 - fst p))).
  exists (fun p => if inside p then Some 0 else None), nodes, f. eexists. exists (c100_at (359#2) (1#2)). eexists. eexists. eexists.
  split; [reflexivity|]. split; [|split; [reflexivity|split; [vm_compute; reflexivity|split; [vm_compute; reflexivity|]]]].
  - intros p. assert (Cs : forall i a b c, Corners nodes f i a b c -> i = 0 /\ a = (179, 0)%Q /\ b = (181, 0)%Q /\ c = (180, 2)%Q).
    { intros i a b c (x & y & z & Er & (_ & Ha) & (_ & Hb) & (_ & Hc)). destruct i as [|i]; [|destruct i; discriminate]. cbn in Er. injection Er as <- <- <-. cbn in Ha, Hb, Hc.
      injection Ha as <-. injection Hb as <-. injection Hc as <-. auto. }
    unfold inside. destruct (_ && _ && _) eqn:C.
    + apply andb_true_iff in C as (C & C3). apply andb_true_iff in C as (C1 & C2). apply Qle_bool_iff in C1, C2, C3.
      exists (179, 0)%Q, (181, 0)%Q, (180, 2)%Q. split; [exists 0%Z, 1%Z, 2%Z; repeat split; discriminate|].
      exists (1 - (snd p / 2) - ((fst p - 179) - snd p / 2) / 2)%Q, (((fst p - 179) - snd p / 2) / 2)%Q, (snd p / 2)%Q.
      assert (E1 : (snd p / 2 == (1#2) * snd p)%Q) by field. assert (E2 : (((fst p - 179) - snd p / 2) / 2 == (1#2) * (fst p - 179) - (1#4) * snd p)%Q) by field.
      cbn [fst snd]. rewrite E2, E1. repeat split; Lqa.lra.
    + intros i (a & b & c & Hc & (u & v & w & U & V & W & Sm & Px & Py)). apply Cs in Hc as (-> & -> & -> & ->). cbn [fst snd] in Px, Py.
      assert (X : (0 <= snd p)%Q /\ (snd p <= 2 * (fst p - 179))%Q /\ (snd p <= 2 * (181 - fst p))%Q) by (repeat split; Lqa.lra).
      destruct X as (X1 & X2 & X3). apply Qle_bool_iff in X1, X2, X3. rewrite X1, X2, X3 in C. discriminate.
  - intros p q (a & b & c & (x & y & z & Er & (_ & Ha) & (_ & Hb) & (_ & Hc)) & T) M. cbn in Er. injection Er as <- <- <-. cbn in Ha, Hb, Hc. injection Ha as <-. injection Hb as <-. injection Hc as <-.
    pose proof (triangle_le _ _ _ _ 181 T) as L. pose proof (triangle_ge _ _ _ _ 179 T) as G. cbn in L, G. specialize (L ltac:(discriminate) ltac:(discriminate) ltac:(discriminate)). specialize (G ltac:(discriminate) ltac:(discriminate) ltac:(discriminate)).
    intros A. apply Qabs.Qabs_Qlt_condition in A. destruct M as (_ & [(_ & E)|(B & E)]); rewrite E in A; Lqa.lra.
Qed.
Print Assumptions c100_middle_refuted.

(** The node numbers recorded count from zero (the documentation calls them
    Fortran numbers, which count from one). *)
Theorem c100_numbers :
  forall locate nodes f e p k n, Triangles nodes f -> Clicks locate nodes f e (Some p) -> nth_error (p_nodes p) k = Some n ->
  (0 <= n < Z.of_nat (length nodes))%Z /\ exists q, nth_error (p_corners p) k = Some q /\ exists x, nth_error nodes (Z.to_nat n) = Some x /\ OnMap x q.
Proof.
  intros locate nodes f e p k n (_ & R & V) C Hn. inversion C as [| | |x y pt i row cs _ _ _ _ _ Er Fc Ep]; subst. cbn [p_nodes p_corners] in *.
  split. { apply V. apply in_concat. exists row. split; eapply nth_error_In; eauto. }
  clear - Fc Hn. revert k Hn. induction Fc as [|a q row cs (y & (_ & Hy) & M) _ IH]; intros [|k] Hn; try discriminate; [|now apply IH]. injection Hn as ->. exists q. split; [reflexivity|]. eauto.
Qed.
Print Assumptions c100_numbers.
Theorem c100_fortran_refuted :
  exists locate nodes f v0 e v r, snd (opened nodes (Some f) None None) = Ok v0 /\ (forall p i, locate p = Some i -> i < length f) /\
  fst (clicks locate nodes (Some f) None [e] v0) = v /\ nth_error (v_log v) 1 = Some (Row r) /\ under "node1" headers r = Some (EInt 0).
Proof.
  exists c100_locate, c100_nodes, c100_faces, c100_start, (c100_at (-159) 1). eexists. eexists. split; [reflexivity|]. split; [apply c100_located|]. split; [reflexivity|]. split; vm_compute; reflexivity.
Qed.
Print Assumptions c100_fortran_refuted.
