(** Searching the file and describing its variables. *)
From Coq Require Import String Ascii.
From Verif Require Import Common CommonProofs MaskModel GridTypeModel GridTypeSpec GridTypeProofs ChainModel VerdatModel VerdatText
  SAttrModel SAttrSpec SAttrProofs SAttrParse SVarModel SVarSpec.
Open Scope string_scope.
Open Scope list_scope.
Open Scope nat_scope.

(** Lists. *)
Lemma find_first_of {A} (p : A -> bool) (P : A -> Prop) l : (forall x, p x = true <-> P x) ->
  match find p l with Some x => FirstOf P l x | None => forall y, In y l -> ~ P y end.
Proof.
  intros H. induction l as [|a l IH]; cbn; [intros y []|].
  destruct (p a) eqn:E.
  - exists [], l. repeat split; [now apply H|intros y []].
  - destruct (find p l) as [x|].
    + destruct IH as (pre & post & -> & Px & N). exists (a :: pre), post. repeat split; auto.
      intros y [<-|Hy]; auto. rewrite <- H, E. discriminate.
    + intros y [<-|Hy]; auto. rewrite <- H, E. discriminate.
Qed.
Lemma first_of_unique {A} (P : A -> Prop) l x y : FirstOf P l x -> FirstOf P l y -> x = y.
Proof.
  intros (p1 & q1 & -> & P1 & N1) (p2 & q2 & E & P2 & N2).
  revert p2 E N2. induction p1 as [|a p1 IH]; intros [|b p2] E N2; cbn in E; injection E as -> E; auto.
  - exfalso. apply (N2 b); cbn; auto.
  - exfalso. apply (N1 y); cbn; auto.
  - apply (IH (fun z Hz => N1 z (or_intror Hz)) p2 E (fun z Hz => N2 z (or_intror Hz))).
Qed.
Lemma first_of_in {A} (P : A -> Prop) l x : FirstOf P l x -> In x l /\ P x.
Proof. intros (pre & post & -> & H & _). split; auto. apply in_elt. Qed.

(** Names. *)
Lemma lower1_idem c : lower1 (lower1 c) = lower1 c.
Proof.
  apply ascii_inj. rewrite !lower1_code.
  destruct ((65 <=? nat_of_ascii c) && (nat_of_ascii c <=? 90)) eqn:E; [|now rewrite E].
  apply andb_true_iff in E. rewrite !Nat.leb_le in E.
  destruct ((65 <=? nat_of_ascii c + 32) && (nat_of_ascii c + 32 <=? 90)) eqn:E'; auto.
  apply andb_true_iff in E'. rewrite !Nat.leb_le in E'. lia.
Qed.
Lemma lower_idem s : lower (lower s) = lower s.
Proof. induction s; cbn; auto. now rewrite lower1_idem, IHs. Qed.
Lemma lower_app a b : lower (a ++ b)%string = (lower a ++ lower b)%string.
Proof. induction a; cbn; auto. now rewrite IHa. Qed.
Lemma mentions_any_ci words s : Forall is_lower words ->
  (mentions_any words (lower s) = true <-> MentionsCI words s).
Proof.
  intros L. rewrite Forall_forall in L. unfold mentions_any. rewrite existsb_exists. split.
  - intros (w & Hw & C). apply contains_spec in C. exists w, (lower s). repeat split; auto.
    apply lower_eq. now rewrite lower_idem.
  - intros (w & t & Hw & C & (a & b & ->)). exists w. split; auto. apply contains_spec.
    apply lower_eq in C. rewrite C, !lower_app. rewrite (L w Hw). now exists (lower a), (lower b).
Qed.
Lemma mention_one w s : is_lower w -> (contains w (lower s) = true <-> MentionsCI [w] s).
Proof.
  intros L. rewrite <- mentions_any_ci by (constructor; auto). cbn. now rewrite orb_false_r.
Qed.
Lemma not_in_empty words : ~ In "" words -> ~ MentionsCI words "".
Proof.
  intros N (w & t & Hw & C & (a & b & E)). destruct t; [|destruct C].
  destruct a; [|discriminate]. destruct w; [contradiction|discriminate].
Qed.
Lemma attr_like words v a : ~ In "" words ->
  (MentionsCI words (attr_or_empty v a) <-> exists s, attr v a = Some s /\ MentionsCI words s).
Proof.
  intros N. unfold attr_or_empty. destruct (attr v a) as [s|].
  - split; [eauto|]. intros (s' & E & M). now injection E as ->.
  - split; [intros H; exfalso; now apply (not_in_empty words)|]. intros (s & E & _). discriminate.
Qed.
Lemma looks_iff words v : Forall is_lower words -> ~ In "" words -> (looks words v = true <-> NamedLike words v).
Proof.
  intros L N. unfold looks, NamedLike. rewrite orb_true_iff, !mentions_any_ci, attr_like by auto. reflexivity.
Qed.
Lemma x_words : Forall is_lower x_coordinates /\ ~ In "" x_coordinates.
Proof. split; [repeat constructor|cbn; intuition discriminate]. Qed.
Lemma y_words : Forall is_lower y_coordinates /\ ~ In "" y_coordinates.
Proof. split; [repeat constructor|cbn; intuition discriminate]. Qed.
Lemma looks_x v : looks x_coordinates v = true <-> XLike v.
Proof. apply looks_iff; apply x_words. Qed.
Lemma looks_y v : looks y_coordinates v = true <-> YLike v.
Proof. apply looks_iff; apply y_words. Qed.
Lemma named_lon_iff v : named_lon v = true <-> Lon v.
Proof.
  unfold named_lon, Lon. rewrite !orb_true_iff, !mention_one by reflexivity.
  rewrite !attr_like by (cbn; intuition discriminate). tauto.
Qed.
Lemma named_lat_iff v : named_lat v = true <-> Lat v.
Proof.
  unfold named_lat, Lat. rewrite !orb_true_iff, !mention_one by reflexivity.
  rewrite !attr_like by (cbn; intuition discriminate). tauto.
Qed.
Lemma subset_iff a b : subset a b = true <-> incl a b.
Proof. unfold subset. rewrite forallb_forall. split; intros H x Hx; [apply isin_in; auto|apply isin_in; apply H; auto]. Qed.
Lemma same_set_iff a b : same_set a b = true <-> SameNames a b.
Proof.
  unfold same_set, SameNames. rewrite andb_true_iff, !subset_iff. split.
  - intros [A B] d. split; auto.
  - intros H. split; intros x Hx; apply H; auto.
Qed.
Lemma shares_iff a b : does_intersection_exist a b = true <-> Shares a b.
Proof.
  unfold does_intersection_exist, Shares. rewrite existsb_exists. split; intros (d & A & B); exists d; split; auto; now apply isin_in.
Qed.

(** The topology variable. *)
Lemma has_role_iff v : has_role v = true <-> attr v "cf_role" = Some "grid_topology".
Proof.
  unfold has_role. destruct (attr v "cf_role") as [r|]; [|split; discriminate]. rewrite String.eqb_eq. split; congruence.
Qed.
Lemma filter_one {A} (p : A -> bool) (P : A -> Prop) l x : (forall y, p y = true <-> P y) ->
  (filter p l = [x] <-> OnlyWith P l x).
Proof.
  intros H. split.
  - induction l as [|a l IH]; cbn; [discriminate|]. destruct (p a) eqn:E.
    + intros F. injection F as -> F. exists [], l. repeat split; [now apply H|]. intros y Hy Py. apply H in Py.
      assert (I : In y (filter p l)) by (apply filter_In; auto). rewrite F in I. destruct I.
    + intros F. destruct (IH F) as (pre & post & -> & Px & N). exists (a :: pre), post. repeat split; auto.
      intros y [<-|Hy]; auto. rewrite <- H, E. discriminate.
  - intros (pre & post & -> & Px & N).
    assert (Z : forall l, (forall y, In y l -> ~ P y) -> filter p l = []).
    { induction l as [|a m IH]; cbn; auto. intros Hn. destruct (p a) eqn:E.
      - exfalso. apply (Hn a); [now left|now apply H].
      - apply IH. intros y Hy. apply Hn. now right. }
    rewrite filter_app, (Z pre) by (intros; apply N; apply in_or_app; auto). cbn. rewrite (proj2 (H x) Px).
    now rewrite (Z post) by (intros; apply N; apply in_or_app; auto).
Qed.

(** Node coordinates. *)
Definition xvar (dims : list string) (v : svar) : bool := same_set (sv_dims v) dims && looks x_coordinates v.
Definition yvar (dims : list string) (v : svar) : bool :=
  same_set (sv_dims v) dims && negb (looks x_coordinates v) && looks y_coordinates v.
Lemma node_step dims v r xy : node_loop dims (v :: r) xy =
  let xy' := if xvar dims v then (Some (sv_name v), snd xy) else if yvar dims v then (fst xy, Some (sv_name v)) else xy in
  match xy' with (Some _, Some _) => xy' | _ => node_loop dims r xy' end.
Proof.
  cbn [node_loop]. unfold xvar, yvar. destruct (same_set (sv_dims v) dims); cbn [andb]; auto.
  destruct (looks x_coordinates v); cbn [andb negb]; auto.
Qed.
Lemma xy_disjoint dims v : xvar dims v = true -> yvar dims v = false.
Proof. unfold xvar, yvar. destruct (same_set _ _), (looks x_coordinates v); cbn; congruence. Qed.
Definition Got (p : svar -> bool) (l : list svar) (o : option string) : Prop :=
  match o with Some n => exists v, In v l /\ p v = true /\ sv_name v = n | None => forall v, In v l -> p v = false end.
(** The loop reads a prefix of the file; if it stops early both are set. *)
Lemma node_loop_spec dims : forall r done xy,
  Got (xvar dims) done (fst xy) -> Got (yvar dims) done (snd xy) -> (fst xy = None \/ snd xy = None) ->
  exists read left, done ++ r = read ++ left /\
    Got (xvar dims) read (fst (node_loop dims r xy)) /\ Got (yvar dims) read (snd (node_loop dims r xy)) /\
    (left = [] \/ (fst (node_loop dims r xy) <> None /\ snd (node_loop dims r xy) <> None)).
Proof.
  assert (More : forall p l v o, Got p l o -> p v = false -> Got p (l ++ [v]) o).
  { intros p l v [n|] H E; cbn in *.
    - destruct H as (w & W & Pw & Nw). exists w. split; auto. apply in_or_app. auto.
    - intros w W. apply in_app_or in W. destruct W as [W|[<-|[]]]; auto. }
  assert (Here : forall p l v, p v = true -> Got p (l ++ [v]) (Some (sv_name v))).
  { intros p l v E. exists v. split; auto. apply in_or_app. right. now left. }
  induction r as [|v r IH]; intros don xy X Y Open.
  - exists don, []. cbn. auto.
  - rewrite node_step. cbv zeta.
    set (xy' := if xvar dims v then (Some (sv_name v), snd xy) else if yvar dims v then (fst xy, Some (sv_name v)) else xy).
    assert (X' : Got (xvar dims) (don ++ [v]) (fst xy')).
    { subst xy'. destruct (xvar dims v) eqn:Ex; cbn [fst]; auto. destruct (yvar dims v); cbn [fst]; auto. }
    assert (Y' : Got (yvar dims) (don ++ [v]) (snd xy')).
    { subst xy'. destruct (xvar dims v) eqn:Ex; cbn [snd].
      - apply More; auto. now apply xy_disjoint.
      - destruct (yvar dims v) eqn:Ey; cbn [snd]; auto. }
    replace (don ++ v :: r) with ((don ++ [v]) ++ r) by now rewrite <- app_assoc.
    destruct xy' as [[x|] [y|]] eqn:E.
    + exists (don ++ [v]), r. split; auto. split; auto. split; auto. right. cbn. split; discriminate.
    + apply IH; auto.
    + apply IH; auto.
    + apply IH; auto.
Qed.
Lemma xvar_iff dims v : xvar dims v = true <-> Lies v dims /\ XLike v.
Proof. unfold xvar. now rewrite andb_true_iff, same_set_iff, looks_x. Qed.
Lemma yvar_iff dims v : yvar dims v = true <-> Lies v dims /\ YLike v /\ ~ XLike v.
Proof.
  unfold yvar. rewrite !andb_true_iff, same_set_iff, looks_y, negb_true_iff, <- looks_x.
  destruct (looks x_coordinates v); intuition congruence.
Qed.

(** Splitting at spaces. *)
Lemma nospace_every s : NoSpace s <-> Every (fun c => c <> " "%char) s.
Proof. induction s; cbn; [tauto|]. now rewrite IHs. Qed.
Lemma split_spaced l : l <> [] -> Forall NoSpace l -> split_on " " (spaced l) = l.
Proof.
  intros N F. induction F as [|w l W F IH]; [contradiction|]. apply nospace_every in W.
  destruct l as [|v l].
  - cbn. now apply split_on_free.
  - change (spaced (w :: v :: l)) with (w ++ String " " (spaced (v :: l)))%string.
    rewrite split_on_app by auto. rewrite IH by discriminate. reflexivity.
Qed.

(** Padding lookup. *)
Lemma find_info_spec l d : match find_info l d with Some p => Governs l d p | None => Ungoverned l d end.
Proof. unfold find_info. apply (find_first_of _ (fun q => face_dim q = d)). intros x. apply String.eqb_eq. Qed.
Lemma governs_info l d p : Governs l d p <-> find_info l d = Some p.
Proof.
  pose proof (find_info_spec l d) as H. destruct (find_info l d) as [q|]; split.
  - intros G. f_equal. eapply first_of_unique; eauto.
  - intros E. now injection E as <-.
  - intros G. exfalso. apply first_of_in in G. destruct G as [I E]. now apply (H p).
  - discriminate.
Qed.
Lemma ungoverned_info l d : Ungoverned l d <-> find_info l d = None.
Proof.
  pose proof (find_info_spec l d) as H. destruct (find_info l d) as [q|]; split; auto.
  - intros G. exfalso. apply first_of_in in H. destruct H as [I E]. now apply (G q).
  - discriminate.
Qed.
Lemma known_slice w : KnownWord w <-> exists s, dget padding_slices w = Some s.
Proof.
  split.
  - intros (a & b & P). destruct P; eexists; reflexivity.
  - intros (s & E). unfold padding_slices in E. cbn [dget] in E.
    destruct (String.eqb w "both") eqn:E1; [apply String.eqb_eq in E1; subst; do 2 eexists; constructor|].
    destruct (String.eqb w "none") eqn:E2; [apply String.eqb_eq in E2; subst; do 2 eexists; constructor|].
    destruct (String.eqb w "low") eqn:E3; [apply String.eqb_eq in E3; subst; do 2 eexists; constructor|].
    destruct (String.eqb w "high") eqn:E4; [apply String.eqb_eq in E4; subst; do 2 eexists; constructor|discriminate].
Qed.

Definition SliceFor (l : list padding) (d : string) (s : option Z * option Z) : Prop :=
  (Ungoverned l d /\ s = (None, None)) \/ (exists p, Governs l d p /\ dget padding_slices (pad_type p) = Some s).
Lemma slices_of_spec l : forall dims ss, slices_of l dims = Ok ss -> Forall2 (SliceFor l) dims ss.
Proof.
  induction dims as [|d dims IH]; intros ss H.
  - injection H as <-. constructor.
  - cbn [slices_of] in H. apply bind_ok in H. destruct H as (s & Hs & H). apply bind_ok in H. destruct H as (rest & Hr & H).
    injection H as <-. constructor; auto. pose proof (find_info_spec l d) as F. destruct (find_info l d) as [p|].
    + right. exists p. split; auto. destruct (dget padding_slices (pad_type p)); congruence.
    + left. split; auto. congruence.
Qed.
Lemma slices_of_ok l : (forall p, In p l -> KnownWord (pad_type p)) -> forall dims, exists ss, slices_of l dims = Ok ss.
Proof.
  intros K. induction dims as [|d dims (ss & IH)]; [eexists; reflexivity|].
  cbn [slices_of]. pose proof (find_info_spec l d) as F. destruct (find_info l d) as [p|].
  - apply first_of_in in F. destruct (proj1 (known_slice _) (K p (proj1 F))) as (s & ->). cbn [bind]. rewrite IH. eexists. reflexivity.
  - cbn [bind]. rewrite IH. eexists. reflexivity.
Qed.

Lemma face_ok g : (exists p q r, sg_face g = Some (p :: q :: r)) -> get_all_face_padding g = Ok (sg_face g).
Proof.
  intros (p & q & r & E). unfold get_all_face_padding. rewrite E.
  replace (py_get (p :: q :: r) 1) with (Ok q); [reflexivity|].
  unfold py_get, py_index. cbn [Z.leb Z.compare].
  replace (1 <? Z.of_nat (length (p :: q :: r)))%Z with true; [reflexivity|]. symmetry. apply Z.ltb_lt. cbn [length]. lia.
Qed.
Lemma edge_entries g : get_all_edge_padding g = entries (sg_edge1 g) ++ entries (sg_edge2 g).
Proof. reflexivity. Qed.
Lemma all_padding_ok g : Complete g ->
  all_padding g = Ok (entries (sg_face g) ++ entries (sg_edge1 g) ++ entries (sg_edge2 g) ++ entries (sg_vertical g)).
Proof.
  intros [F V]. unfold all_padding. rewrite (face_ok _ F). destruct F as (p & q & r & ->). cbn [bind plus_list entries].
  destruct (sg_vertical g) as [v|]; [|contradiction]. rewrite edge_entries, <- !app_assoc. reflexivity.
Qed.
Lemma slicing_ok g nd dims l : Complete g -> applicable g nd dims l -> split_on " " (sg_node_dimensions g) = nd ->
  determine_variable_slicing g dims = slices_of l dims.
Proof.
  intros C A <-. unfold determine_variable_slicing. destruct A as [[S ->]|[S ->]].
  - rewrite (proj2 (shares_iff _ _) S). destruct C as [(p & q & r & ->) _]. reflexivity.
  - destruct (does_intersection_exist dims (split_on " " (sg_node_dimensions g))) eqn:E.
    + exfalso. apply S. now apply shares_iff.
    + rewrite all_padding_ok by auto. reflexivity.
Qed.

(** Averaging axes. *)
Lemma index_of_app d pre post : ~ In d pre -> index_of d (pre ++ d :: post) = length pre.
Proof.
  induction pre as [|x pre IH]; cbn; intros N.
  - now rewrite String.eqb_refl.
  - destruct (String.eqb x d) eqn:E; [apply String.eqb_eq in E; subst; tauto|]. rewrite IH; tauto.
Qed.
Lemma first_padded_spec l dims :
  match first_padded l dims with
  | Some d => exists pre post p, dims = pre ++ d :: post /\ Governs l d p /\ forall e, In e pre -> Ungoverned l e
  | None => forall e, In e dims -> Ungoverned l e
  end.
Proof.
  unfold first_padded.
  pose proof (find_first_of (fun d => match find_info l d with Some _ => true | None => false end)
                (fun d => exists p, Governs l d p) dims) as H.
  assert (E : forall x, (match find_info l x with Some _ => true | None => false end) = true <-> exists p, Governs l x p).
  { intros x. pose proof (governs_info l x) as G. destruct (find_info l x) as [p|].
    - split; auto. intros _. exists p. now apply G.
    - split; [discriminate|]. intros (p & Gp). apply G in Gp. discriminate. }
  specialize (H E). destruct (find _ dims) as [d|].
  - destruct H as (pre & post & -> & (p & P) & N). exists pre, post, p. repeat split; auto.
    intros e He. apply ungoverned_info. destruct (find_info l e) as [q|] eqn:F; auto. exfalso. apply (N e He).
    exists q. now apply governs_info.
  - intros e He. apply ungoverned_info. destruct (find_info l e) as [q|] eqn:F; auto. exfalso. apply (H e He).
    exists q. now apply governs_info.
Qed.
Lemma shares_sym a b : Shares a b <-> Shares b a.
Proof. unfold Shares. split; intros (d & ? & ?); exists d; auto. Qed.
Lemma axes_ok g nd dims l : (exists p q r, sg_face g = Some (p :: q :: r)) -> applicable2 g nd dims l ->
  split_on " " (sg_node_dimensions g) = nd -> dims <> [] ->
  infer_avg_axes g dims =
    let center := match first_padded l dims with Some d => Some (length dims - index_of d dims - 1) | None => None end in
    Ok (center, match center with Some 1 => Some 0 | Some 0 => Some 1 | _ => None end).
Proof.
  intros F A <- N. unfold infer_avg_axes. rewrite (face_ok _ F). cbn [bind]. destruct A as [[S ->]|[S ->]].
  - rewrite (proj2 (shares_iff _ _) (proj1 (shares_sym _ _) S)). destruct F as (p & q & r & ->). cbn [bind entries].
    destruct dims; [contradiction|]. reflexivity.
  - destruct (does_intersection_exist (split_on " " (sg_node_dimensions g)) dims) eqn:E.
    + exfalso. apply S. apply shares_sym. now apply shares_iff.
    + destruct F as (p & q & r & ->). cbn [bind plus_list entries]. rewrite edge_entries.
      destruct dims; [contradiction|]. reflexivity.
Qed.

(** The text parsers never fail. *)
Lemma parse_axes_total s : exists a, parse_axes s = Ok a.
Proof.
  unfold parse_axes, findall, axes_re.
  pose proof (scan_pieces (One is_alpha) [lit ":"; lit " "; Plus is_alpha_us] (String.length s) s (le_n _)) as P.
  set (l := scan _ 0 s) in *. clearbody l.
  assert (F : Forall (fun ws => exists a, ws = axis_pieces a /\ LegalAxis a) l).
  { induction P as [|g ws l s F P IH]; constructor; auto. now apply axis_fits. }
  clear P. generalize (@None string, @None string, @None string). induction F as [|ws l (a & -> & L) F IH]; intros t.
  - eexists. reflexivity.
  - cbn [map axis_steps]. rewrite axis_step_put by auto. cbn [bind]. apply IH.
Qed.
Lemma vector_total s : exists a, parse_vector_axis s = Ok a.
Proof.
  destruct (mseq vector_re s) as [r|] eqn:M.
  - assert (D : Directed s) by (apply vector_fits; rewrite M; discriminate).
    pose proof D as (a & d & b & rest & A & Dd & B & E).
    destruct (first_exists s) as (d0 & F). { exists a, d, (b ++ rest)%string. auto. }
    eexists. apply vector_some; eauto.
  - exists None. unfold parse_vector_axis. now rewrite M.
Qed.
