(** Proofs about the inspector window. *)
From Coq Require Import QArith String Lqa.
From Verif Require Import Common CommonProofs MaskModel DepthModel DepthProofs UGridModel UGridSpec UGridProofs SGridModel NLoadModel NLoadSpec NLoadProofs
  PlotModel PlotSpec PlotProofs InspModel InspSpec.
Open Scope list_scope.
Open Scope nat_scope.

Ltac eqbs := repeat match goal with |- context [?a =? ?b] => destruct (Nat.eqb_spec a b); try lia end.

(** Artists numbered below [t]. *)
Definition Below (t : nat) (l : list (nat * artist)) : Prop := Forall (fun x => fst x < t) l.
Lemma below_le t u l : t <= u -> Below t l -> Below u l.
Proof. intros L. apply Forall_impl. intros; lia. Qed.
Lemma filter_below t i l : Below t l -> t <= i -> filter (fun x : nat * artist => negb (fst x =? i)) l = l.
Proof.
  intros B L. induction B as [|x l H B IH]; [reflexivity|]. cbn [filter]. destruct (Nat.eqb_spec (fst x) i); [lia|]. cbn [negb]. now rewrite IH.
Qed.
Lemma filter_ext' {A} (f g : A -> bool) l : (forall x, In x l -> f x = g x) -> filter f l = filter g l.
Proof. intros H. induction l as [|x l IH]; [reflexivity|]. cbn [filter]. rewrite (H x) by now left. rewrite IH by (intros; apply H; now right). reflexivity. Qed.
Lemma filter_filter {A} (f g : A -> bool) l : filter f (filter g l) = filter (fun x => g x && f x) l.
Proof. induction l as [|x l IH]; [reflexivity|]. cbn [filter]. destruct (g x); cbn [andb filter]; now rewrite IH. Qed.
Lemma remove_all_app t is : forall log kept over nx s t0 n, Below t kept -> (forall i, In i is -> t <= i /\ In i (map fst over)) -> NoDup is ->
  remove_all is (mkViewer log (kept ++ over) nx s t0 n) =
  Ok (mkViewer log (kept ++ filter (fun x : nat * artist => negb (existsb (Nat.eqb (fst x)) is)) over) nx s t0 n).
Proof.
  induction is as [|i is IH]; intros log kept over nx s t0 n B H D.
  - cbn [remove_all existsb negb]. f_equal. f_equal. f_equal. clear H. induction over as [|x r IHr]; [reflexivity|]. cbn [filter]. now rewrite <- IHr.
  - inversion D as [|? ? NI D']; subst. destruct (H i (or_introl eq_refl)) as (Li & Ii). cbn [remove_all]. unfold remove at 1. cbn [v_axes v_log v_next v_scatter v_triangle v_notes].
    rewrite existsb_app. assert (X : existsb (fun x : nat * artist => fst x =? i) over = true).
    { apply existsb_exists. apply in_map_iff in Ii as (x & E & Hx). exists x. split; auto. now apply Nat.eqb_eq. }
    rewrite X, orb_true_r, filter_app, (filter_below t i kept B Li). cbn [bind]. rewrite IH; auto.
    + rewrite filter_filter. do 3 f_equal. apply filter_ext'. intros x _. cbn [existsb]. now rewrite negb_orb.
    + intros j Hj. destruct (H j (or_intror Hj)) as (Lj & Ij). split; [exact Lj|]. apply in_map_iff in Ij as (x & E & Hx). apply in_map_iff. exists x. split; auto. apply filter_In. split; auto.
      destruct (Nat.eqb_spec (fst x) i); [|reflexivity]. subst. contradiction.
Qed.

(** The steps of a drawing. *)
Lemma add_mk a l ax n s t no : add a (mkViewer l ax n s t no) = (mkViewer l (ax ++ [(n, a)]) (S n) s t no, n).
Proof. reflexivity. Qed.
Lemma note_mk a l ax n s t no : note a (mkViewer l ax n s t no) = mkViewer l (ax ++ [(n, a)]) (S n) s t (no ++ [n]).
Proof. reflexivity. Qed.
Lemma set_notes_mk x l ax n s t no : set_notes x (mkViewer l ax n s t no) = mkViewer l ax n s t x.
Proof. reflexivity. Qed.
Lemma set_triangle_mk i l ax n s t no : set_triangle i (mkViewer l ax n s t no) = mkViewer l ax n s (Some i) no.
Proof. reflexivity. Qed.
Lemma set_scatter_mk i l ax n s t no : set_scatter i (mkViewer l ax n s t no) = mkViewer l ax n (Some i) t no.
Proof. reflexivity. Qed.
Lemma append_row_mk r l ax n s t no : append_row r (mkViewer l ax n s t no) = mkViewer (l ++ [Row r]) ax n s t no.
Proof. reflexivity. Qed.

(** The window between two selections. *)
Section Window.
  Context (base : list artist) (log0 : list line).
  Definition triple (p : pick) (n1 n2 n3 : Z) (q1 q2 q3 : point) : Prop := p_nodes p = [n1; n2; n3] /\ p_corners p = [q1; q2; q3].
  Definition over (t : nat) (p : pick) : list (nat * artist) :=
    [(t, Patch (p_corners p)); (S t, Dots (p_corners p))] ++
    if p_saved p then
      match p_nodes p, p_corners p with
      | [n1; n2; n3], [q1; q2; q3] =>
          [(t + 2, Badge n1 q1); (t + 3, Badge n2 q2); (t + 4, Badge n3 q3); (t + 5, Callout (p_face p) (p_nodes p) (p_click p)); (t + 6, Mark (center (p_corners p)))]
      | _, _ => []
      end
    else [].
  Definition row_of (p : pick) : list field :=
    match p_nodes p, p_corners p with
    | [n1; n2; n3], [p1; p2; p3] =>
        let c := center (p_corners p) in
        [EInt (Z.of_nat (p_face p)); ENum (snd c); ENum (fst c);
         EInt n1; ENum (snd p1); ENum (fst p1); EInt n2; ENum (snd p2); ENum (fst p2); EInt n3; ENum (snd p3); ENum (fst p3)]
    | _, _ => []
    end.
  Definition kept_marks (sel : list pick) : list artist := map (fun p => Mark (center (p_corners p))) (filter p_saved sel).
  Definition notes_of (t : nat) (p : pick) : list nat := if p_saved p then [t + 2; t + 3; t + 4; t + 5] else [].
  Definition Inv (sel : list pick) (v : viewer) : Prop :=
    v_log v = log0 ++ map (fun p => Row (row_of p)) (filter p_saved sel) /\
    match rev sel with
    | [] => map snd (v_axes v) = base /\ Below (v_next v) (v_axes v) /\ v_scatter v = None /\ v_triangle v = None /\ v_notes v = []
    | p :: earlier =>
        exists t kept, Below t kept /\ map snd kept = base ++ kept_marks (rev earlier) /\ v_axes v = kept ++ over t p /\
          v_next v = (if p_saved p then t + 7 else t + 2) /\ v_triangle v = Some t /\ v_scatter v = Some (S t) /\ v_notes v = notes_of t p
    end.
  Definition Tri (p : pick) : Prop := exists n1 n2 n3 q1 q2 q3, triple p n1 n2 n3 q1 q2 q3.
  Definition answer_of (p : pick) : answer := mkAnswer (p_face p) (p_nodes p) (p_corners p) (p_click p).

  (** Clearing the last selection leaves its mark. *)
  Lemma cleared sel v : Inv sel v -> Forall Tri sel ->
    exists v3, (do v1 <- remove_opt (v_scatter v) v; do v2 <- remove_opt (v_triangle v) v1; remove_all (v_notes v) v2) = Ok v3 /\
      v_log v3 = v_log v /\ v_next v3 = v_next v /\ Below (v_next v) (v_axes v3) /\ map snd (v_axes v3) = base ++ kept_marks sel.
  Proof.
    intros (_ & I) T. destruct (rev sel) as [|p earlier] eqn:R.
    - destruct I as (A & B & -> & -> & ->). exists v. assert (sel = []) as -> by (apply (f_equal (@rev _)) in R; now rewrite rev_involutive in R).
      cbn [remove_opt remove_all bind]. repeat split; auto. unfold kept_marks. cbn. now rewrite app_nil_r.
    - assert (sel = rev earlier ++ [p]) as Es by (apply (f_equal (@rev _)) in R; now rewrite rev_involutive in R).
      assert (Tri p) as Tp. { rewrite Forall_forall in T. apply T. rewrite Es. apply in_or_app. right. now left. }
      clear T. destruct Tp as (n1 & n2 & n3 & q1 & q2 & q3 & En & Eq). destruct I as (t & kept & B & K & A & N & Et & Esc & Eno).
      rewrite Et, Esc, Eno.
      assert (C : forall w, (do v1 <- remove_opt (Some (S t)) w; do v2 <- remove_opt (Some t) v1; remove_all (notes_of t p) v2) = remove_all (S t :: t :: notes_of t p) w).
      { intros w. reflexivity. }
      rewrite C. destruct v as [lg ax nx sc tr no]. cbn [v_log v_axes v_next v_scatter v_triangle v_notes] in *. subst ax.
      rewrite (remove_all_app t _ lg kept (over t p) nx sc tr no B).
      + eexists. split; [reflexivity|]. cbn [v_log v_axes v_next]. split; [reflexivity|]. split; [reflexivity|].
        assert (F : filter (fun x : nat * artist => negb (existsb (Nat.eqb (fst x)) (S t :: t :: notes_of t p))) (over t p) = if p_saved p then [(t + 6, Mark (center (p_corners p)))] else []).
        { unfold over, notes_of. rewrite En, Eq. destruct (p_saved p); cbn [filter app fst existsb]; repeat (eqbs; cbn [negb orb filter fst existsb]); reflexivity. }
        rewrite F. split.
        * apply Forall_app. split; [eapply below_le; [|exact B]; destruct (p_saved p); lia|]. destruct (p_saved p); [|constructor]. constructor; [cbn [fst]; lia|constructor].
        * rewrite map_app, K, Es. unfold kept_marks. rewrite filter_app, map_app, <- app_assoc. cbn [filter]. destruct (p_saved p); reflexivity.
      + unfold notes_of, over. rewrite En, Eq. intros i Hi. destruct (p_saved p); cbn in Hi |- *; intuition lia.
      + unfold notes_of. destruct (p_saved p); repeat constructor; cbn; intuition lia.
  Qed.

  Lemma drawn sel v p : Inv sel v -> Forall Tri sel -> Tri p ->
    exists v', draw_query_result (p_saved p) (answer_of p) v = (v', if p_saved p then None else Some RuntimeError) /\ Inv (sel ++ [p]) v'.
  Proof.
    intros I T Tp. destruct (cleared sel v I T) as (v3 & E3 & L3 & N3 & B3 & M3). destruct I as (L & _).
    destruct v3 as [lg3 ax3 nx3 sc3 tr3 no3]. cbn [v_log v_axes v_next] in L3, N3, B3, M3. rewrite L in L3. clear L. subst lg3. rewrite <- N3 in *. clear N3.
    destruct Tp as (n1 & n2 & n3 & q1 & q2 & q3 & En & Eq).
    assert (R : log_row (answer_of p) = Ok (row_of p)) by (unfold log_row, row_of, answer_of; cbn [an_nodes an_coords an_face]; rewrite En, Eq; reflexivity).
    unfold draw_query_result. rewrite E3. clear E3. cbv zeta. rewrite set_notes_mk, add_mk. cbv iota. rewrite set_triangle_mk, add_mk. cbv iota. rewrite set_scatter_mk, R. clear R. cbv iota.
    unfold Inv. rewrite rev_app_distr. cbn [rev app]. rewrite rev_involutive. unfold over, notes_of. unfold answer_of. cbn [an_coords an_nodes an_face an_click]. rewrite filter_app, map_app. cbn [filter].
    destruct (p_saved p) eqn:D.
    - rewrite En, Eq. cbn [combine fold_left fst snd]. rewrite append_row_mk, !note_mk, add_mk. eexists. split; [reflexivity|]. cbn [v_log v_axes v_next v_scatter v_triangle v_notes fst]. split.
      + rewrite <- app_assoc. reflexivity.
      + exists nx3, ax3. split; [exact B3|]. split; [exact M3|]. split.
        * rewrite <- !app_assoc. cbn [app]. do 2 (apply f_equal). repeat (apply f_equal2; [apply f_equal2; [lia|reflexivity]|]). reflexivity.
        * split; [lia|]. split; [reflexivity|]. split; [reflexivity|]. cbn [app]. repeat (apply f_equal2; [lia|]). reflexivity.
    - eexists. split; [reflexivity|]. cbn [v_log v_axes v_next v_scatter v_triangle v_notes]. split.
      + cbn [map]. now rewrite app_nil_r.
      + exists nx3, ax3. split; [exact B3|]. split; [exact M3|]. split; [rewrite <- !app_assoc; reflexivity|].
        split; [lia|]. split; [reflexivity|]. split; reflexivity.
  Qed.
End Window.
