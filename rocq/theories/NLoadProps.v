(** Theorems about loading a mesh by variable names (C89). *)
From Coq Require Import QArith String.
From Verif Require Import Common CommonProofs GridTypeModel UGridModel UGridSpec UGridProofs SVarProofs NLoadModel NLoadSpec NLoadProofs.
Open Scope string_scope.
Open Scope list_scope.
Open Scope nat_scope.

(** The mesh comes out of the file as it was put in, whether rows or columns are
    faces and whether numbers count from 0 or 1, when there are more faces than
    nodes of a face and the first node is used. *)
Theorem c89_faces_partial :
  forall f mapping checks lon lat a n w F base, (base = 0 \/ base = 1)%Z -> w < length F -> IsMesh n w F -> UsesFirst F ->
  check_attrs (mf_attrs f) checks = Ok tt -> Mapped (mf_nums f) mapping "nodes_lon" lon -> Mapped (mf_nums f) mapping "nodes_lat" lat ->
  length (nv_vals lon) = n -> length (nv_vals lat) = n ->
  Mapped (mf_ints f) mapping "faces" a -> Holds w (counted base F) a ->
  (forall role, In role ["face_face_connectivity"; "face_coordinates_lon"; "boundaries"] -> dget mapping role = None) ->
  exists m, load_from_varnames f mapping checks = Ok m /\ um_faces m = F /\ um_nodes m = combine (nv_vals lon) (nv_vals lat) /\
    um_ff m = None /\ um_fcoords m = None /\ um_bounds m = None.
Proof.
  intros f mapping checks lon lat a n w F base B L M U Hc Hlon Hlat Nlon Nlat Hf H N.
  assert (L' : 0 < w < length F) by (destruct M; lia).
  destruct (file_min n w base F a B L' M U H) as (E & Z). apply look_mapped in Hlon, Hlat, Hf.
  assert (S : set_faces n (decremented (base =? 1)%Z (oriented a)) = Ok F).
  { assert (D : decremented (base =? 1)%Z (oriented a) = F).
    { rewrite E. destruct B as [-> | ->]; [cbn [Z.eqb Pos.eqb]; unfold decremented; apply counted_zero|apply decremented_counted]. }
    rewrite D. apply set_faces_zero_based. split; [intros C; unfold UsesFirst in U; rewrite C in U; contradiction|].
    intros x Hx. destruct M as (_ & _ & V). apply V in Hx. lia. }
  unfold load_from_varnames. rewrite Hc. cbn [bind]. rewrite Hlon. cbn [bind]. rewrite Hlat. cbn [bind]. unfold column at 1. rewrite Nlon, Nlat, Nat.eqb_refl. cbn [bind].
  rewrite Hf. cbn [bind]. rewrite Z. cbn [bind]. rewrite S. cbn [bind].
  rewrite (N "face_face_connectivity"), (N "face_coordinates_lon"), (N "boundaries") by (cbn; tauto). cbn [bind].
  eexists. split; [reflexivity|]. repeat split.
Qed.
Print Assumptions c89_faces_partial.
(** The other parts count from where the faces do. *)
Theorem c89_parts :
  forall f mapping checks m a n w F base, (base = 0 \/ base = 1)%Z -> w < length F -> IsMesh n w F -> UsesFirst F ->
  Mapped (mf_ints f) mapping "faces" a -> Holds w (counted base F) a ->
  load_from_varnames f mapping checks = Ok m ->
  (** neighbours: those of a face are numbers of faces, -1 for none *)
  (forall FF t, Rect w FF -> w < length FF -> Mapped (mf_ints f) mapping "face_face_connectivity" t -> Holds w (counted base FF) t -> um_ff m = Some FF) /\
  (** boundaries: the first two columns *)
  (forall BB t, Mapped (mf_ints f) mapping "boundaries" t -> map (firstn 2) t = counted base BB -> um_bounds m = Some BB) /\
  (forall lon x y, Mapped (mf_nums f) mapping "nodes_lon" lon -> nv_whole lon = false ->
     Mapped (mf_nums f) mapping "face_coordinates_lon" x -> Mapped (mf_nums f) mapping "face_coordinates_lat" y ->
     length (nv_vals x) = length (um_faces m) -> length (nv_vals y) = length (um_faces m) ->
     um_fcoords m = Some (combine (nv_vals x) (nv_vals y))).
Proof.
  intros f mapping checks m a n w F base B L M U Hf H E.
  assert (L' : 0 < w < length F) by (destruct M; lia).
  destruct (load_parts _ _ _ _ E) as (lon & lat & lats & faces & mn & faces' & _ & Hlon & _ & _ & Hf' & Hmn & _ & _ & Hfaces & Hff & Hfc & Hb).
  assert (faces = a) by (eapply mapped_fun; eauto). subst faces.
  destruct (file_min n w base F a B L' M U H) as (Eo & Z). rewrite Z in Hmn. injection Hmn as <-.
  assert (D : forall t, decremented (base =? 1)%Z (counted base t) = t).
  { intros t. destruct B as [-> | ->]; [cbn [Z.eqb Pos.eqb]; unfold decremented; apply counted_zero|apply decremented_counted]. }
  split; [|split].
  - intros FF t R Lf Ht Hh. destruct Ht as (name & Hn & Hv). rewrite Hn in Hff. destruct Hff as (t' & (name' & Hn' & Hv') & _ & ->).
    assert (t' = t) by congruence. subst t'. f_equal. rewrite (oriented_holds w (counted base FF) t); auto.
    + rewrite counted_length. destruct M. lia.
    + now apply counted_rect.
  - intros BB t Ht Et. destruct Ht as (name & Hn & Hv). rewrite Hn in Hb. destruct Hb as (t' & (name' & Hn' & Hv') & ->).
    assert (t' = t) by congruence. subst t'. now rewrite Et, D.
  - intros lon' x y Hlon' W Hx Hy Lx Ly. assert (lon' = lon) by (eapply mapped_fun; eauto). subst lon'.
    pose proof Hx as (nx & Enx & _). pose proof Hy as (ny & Eny & _). rewrite Enx, Eny in Hfc.
    destruct Hfc as (x' & y' & xs & ys & Hx' & Hy' & Cx & Cy & ->).
    assert (x' = x) by (eapply mapped_fun; eauto). assert (y' = y) by (eapply mapped_fun; eauto). subst x' y'.
    unfold column in Cx, Cy. rewrite <- Hfaces, Lx, Nat.eqb_refl in Cx. rewrite <- Hfaces, Ly, Nat.eqb_refl in Cy.
    injection Cx as <-. injection Cy as <-. now rewrite W.
Qed.
Print Assumptions c89_parts.
(** Whatever is loaded, nodes are the values of the two variables, and faces
    number nodes. *)
Theorem c89_sound :
  forall f mapping checks m, load_from_varnames f mapping checks = Ok m ->
  exists lon lat, Mapped (mf_nums f) mapping "nodes_lon" lon /\ Mapped (mf_nums f) mapping "nodes_lat" lat /\
    map fst (um_nodes m) = nv_vals lon /\
    (length (nv_vals lat) = length (nv_vals lon) -> map snd (um_nodes m) = nv_vals lat) /\
    (forall x, In x (concat (um_faces m)) -> x = (-1)%Z \/ (0 <= x < Z.of_nat (length (um_nodes m)))%Z) /\
    (forall t, um_ff m = Some t -> length t = length (um_faces m)).
Proof.
  intros f mapping checks m E.
  destruct (load_parts _ _ _ _ E) as (lon & lat & lats & faces & mn & faces' & _ & Hlon & Hlat & Hl & _ & _ & Hs & Hn & Hfaces & Hff & _).
  assert (L : length lats = length (nv_vals lon)).
  { unfold column in Hl. destruct (Nat.eqb_spec (length (nv_vals lat)) (length (nv_vals lon))); [congruence|].
    destruct (nv_vals lat) as [|q [|]]; try discriminate. injection Hl as <-. now rewrite repeat_length. }
  exists lon, lat. split; [exact Hlon|]. split; [exact Hlat|].
  assert (C : forall (p q : list Q), length p = length q -> map fst (combine p q) = p /\ map snd (combine p q) = q).
  { induction p as [|x p IH]; intros [|y q] X; try discriminate; [auto|]. cbn. destruct (IH q) as (A1 & A2); [now injection X|]. now rewrite A1, A2. }
  destruct (C (nv_vals lon) lats) as (C1 & C2); [congruence|]. rewrite Hn.
  split; [exact C1|]. split; [|split].
  - intros X. rewrite C2. unfold column in Hl. rewrite X, Nat.eqb_refl in Hl. congruence.
  - rewrite combine_length, L, Nat.min_id, Hfaces. exact (set_faces_valid _ _ _ Hs).
  - intros t Ht. destruct (dget mapping "face_face_connectivity"); [|congruence]. destruct Hff as (t' & _ & S & E'). rewrite E' in Ht. injection Ht as <-.
    unfold shape_ok in S. apply Bool.andb_true_iff in S. destruct S as (S & _). apply Nat.eqb_eq in S. congruence.
Qed.
Print Assumptions c89_sound.
(** Faces in rows, not more of them than nodes of a face: rows and columns are
    exchanged, so that faces have the wrong number of nodes. *)
Theorem c89_few_faces_refuted :
  forall f mapping checks m n w F base, IsMesh n w F -> 0 < length F < w -> Mapped (mf_ints f) mapping "faces" (counted base F) ->
  load_from_varnames f mapping checks = Ok m -> length (um_faces m) = w /\ Rect (length F) (um_faces m) /\ um_faces m <> F.
Proof.
  intros f mapping checks m n w F base (W & R & V) L Hf E.
  destruct (load_parts _ _ _ _ E) as (lon & lat & lats & faces & mn & faces' & _ & _ & _ & _ & Hf' & _ & Hs & _ & Hfaces & _).
  assert (faces = counted base F) by (eapply mapped_fun; eauto). subst faces.
  assert (Wd : width (counted base F) = w). { apply width_rect; [now apply counted_rect|]. intros X. apply (f_equal (@length _)) in X. rewrite counted_length in X. cbn in X. lia. }
  assert (O : oriented (counted base F) = transposed (counted base F)).
  { unfold oriented. rewrite Wd, counted_length. destruct (Nat.leb_spec (length F) w); [reflexivity|lia]. }
  rewrite O in Hs. destruct (transposed_shape (counted base F)) as (TL & TR). rewrite Wd in TL. rewrite counted_length in TR.
  assert (S : map (@length Z) (um_faces m) = map (@length Z) (transposed (counted base F))).
  { rewrite Hfaces, (set_faces_shape _ _ _ Hs). unfold decremented. destruct (mn =? 1)%Z; [|reflexivity].
    rewrite map_map. apply map_ext. intros r. apply map_length. }
  assert (LL : length (um_faces m) = w). { apply (f_equal (@length _)) in S. rewrite !map_length in S. congruence. }
  split; [exact LL|]. split.
  - unfold Rect. apply Forall_forall. intros r Hr. apply (in_map (@length Z)) in Hr. rewrite S in Hr. apply in_map_iff in Hr.
    destruct Hr as (r' & <- & Hr). unfold Rect in TR. rewrite Forall_forall in TR. now apply TR.
  - intros X. rewrite X in LL. lia.
Qed.
Print Assumptions c89_few_faces_refuted.

Definition demo_map : dict string := [("nodes_lon", "lon"); ("nodes_lat", "lat"); ("faces", "nv"); ("face_face_connectivity", "nbe")].
Definition demo_nodes (n : nat) : dict numvar :=
  [("lon", mkNum false (map (fun i => inject_Z (Z.of_nat i)) (seq 0 n))); ("lat", mkNum false (repeat 1%Q n))].
Definition fan : list (list Z) := [[0; 1; 2]; [0; 2; 3]; [0; 3; 4]; [0; 4; 5]]%Z.
Definition fan_ff : list (list Z) := [[-1; -1; 1]; [0; -1; 2]; [1; -1; 3]; [2; -1; -1]]%Z.
Example c89_example :
  exists m, load_from_varnames (mkMfile [("grid_type", "Triangular")] (demo_nodes 6)
      [("nv", transposed (counted 1 fan)); ("nbe", transposed (counted 1 fan_ff))]) demo_map [("grid_type", "triangular")] = Ok m /\
    um_faces m = fan /\ um_ff m = Some fan_ff /\ length (um_nodes m) = 6 /\
    IsMesh 6 3 fan /\ UsesFirst fan /\ Holds 3 (counted 1 fan) (transposed (counted 1 fan)).
Proof.
  eexists. split; [vm_compute; reflexivity|]. split; [reflexivity|]. split; [reflexivity|]. split; [reflexivity|]. split; [|split].
  - split; [lia|]. split; [repeat constructor|]. intros x Hx. cbn in Hx. intuition (subst; lia).
  - now left.
  - right. split; [reflexivity|]. split; [repeat constructor|]. intros i j Hi Hj. cbn [length fan counted map] in Hi.
    do 4 (destruct i as [|i]; [do 3 (destruct j as [|j]; [reflexivity|]); lia|]). lia.
Qed.
(** When the first node is not used, numbers from 1 are taken for numbers from 0
    (unless the last node is used), and numbers from 0 for numbers from 1. *)
Theorem c89_base_refuted :
  exists F n w, IsMesh n w F /\ w < length F /\
    (exists f m, Mapped (mf_ints f) demo_map "faces" (counted 1 F) /\ load_from_varnames f demo_map [] = Ok m /\ um_faces m <> F) /\
    (exists f m, Mapped (mf_ints f) demo_map "faces" F /\ load_from_varnames f demo_map [] = Ok m /\ um_faces m <> F).
Proof.
  exists (counted 1 fan), 7, 3. split; [|split; [cbn; lia|]].
  - split; [lia|]. split; [repeat constructor|]. intros x Hx. cbn in Hx. intuition (subst; lia).
  - split.
    + exists (mkMfile [] (demo_nodes 8) [("nv", counted 2 fan); ("nbe", fan_ff)]). eexists. split; [|split; [vm_compute; reflexivity|discriminate]].
      now exists "nv".
    + exists (mkMfile [] (demo_nodes 7) [("nv", counted 1 fan); ("nbe", fan_ff)]). eexists. split; [|split; [vm_compute; reflexivity|discriminate]].
      now exists "nv".
Qed.
Print Assumptions c89_base_refuted.
(** When the first node is not used and the last is, the setter of faces puts the
    numbers right, but those of the neighbours stay one too high. *)
Theorem c89_neighbours_refuted :
  exists F FF f m, IsMesh 7 3 F /\ Mapped (mf_ints f) demo_map "faces" (counted 1 F) /\ Mapped (mf_ints f) demo_map "face_face_connectivity" (counted 1 FF) /\
    load_from_varnames f demo_map [] = Ok m /\ um_faces m = F /\ um_ff m = Some (counted 1 FF) /\ um_ff m <> Some FF.
Proof.
  exists (counted 1 fan), fan_ff, (mkMfile [] (demo_nodes 7) [("nv", counted 2 fan); ("nbe", counted 1 fan_ff)]). eexists.
  split; [|split; [now exists "nv"|split; [now exists "nbe"|split; [vm_compute; reflexivity|split; [reflexivity|split; [reflexivity|discriminate]]]]]].
  split; [lia|]. split; [repeat constructor|]. intros x Hx. cbn in Hx. intuition (subst; lia).
Qed.
Print Assumptions c89_neighbours_refuted.
(** Face coordinates have the type of the longitudes of nodes: when these are
    stored as whole numbers (packed), they lose their fractions. *)
Theorem c89_packed_refuted :
  exists f mapping m, load_from_varnames f mapping [] = Ok m /\
    dget (mf_nums f) "lonc" = Some (mkNum false [-1 # 2; 3 # 2; 5 # 2; -7 # 2]%Q) /\ dget mapping "face_coordinates_lon" = Some "lonc" /\
    option_map (map fst) (um_fcoords m) = Some [0; 1; 2; -3]%Q.
Proof.
  exists (mkMfile [] [("lon", mkNum true (map (fun i => inject_Z (Z.of_nat i)) (seq 0 6))); ("lat", mkNum true (repeat 1%Q 6));
     ("lonc", mkNum false [-1 # 2; 3 # 2; 5 # 2; -7 # 2]%Q); ("latc", mkNum false (repeat 1%Q 4))] [("nv", fan)]).
  exists [("nodes_lon", "lon"); ("nodes_lat", "lat"); ("faces", "nv"); ("face_coordinates_lon", "lonc"); ("face_coordinates_lat", "latc")].
  eexists. split; [vm_compute; reflexivity|]. repeat split.
Qed.
Print Assumptions c89_packed_refuted.
(** Attributes are compared without regard to case only if the wanted value is
    given in lower case: another value is never accepted, not even by a file that
    has it. *)
Theorem c89_attribute_case_refuted :
  forall f mapping name value rest, lower value <> value -> dget (mf_attrs f) name = Some value ->
  load_from_varnames f mapping ((name, value) :: rest) = Err ValueError /\
  forall g e, load_from_varnames g mapping ((name, value) :: rest) <> Ok e.
Proof.
  intros f mapping name value rest N H. unfold load_from_varnames. cbn [check_attrs]. rewrite H.
  destruct (String.eqb_spec (lower value) value); [contradiction|]. split; [reflexivity|]. intros g e.
  destruct (dget (mf_attrs g) name) as [v|]; [|discriminate]. destruct (String.eqb_spec (lower v) value) as [E|E]; [|discriminate].
  exfalso. apply N. rewrite <- E. apply lower_idem.
Qed.
Print Assumptions c89_attribute_case_refuted.
(** Attributes as wanted. *)
Theorem c89_attributes :
  forall attrs checks, (check_attrs attrs checks = Ok tt <-> forall name value, In (name, value) checks -> exists v, dget attrs name = Some v /\ lower v = value) /\
  (forall name value, checks = [(name, value)] -> dget attrs name = None -> check_attrs attrs checks = Err AttributeError) /\
  (forall name value v, checks = [(name, value)] -> dget attrs name = Some v -> lower v <> value -> check_attrs attrs checks = Err ValueError).
Proof.
  intros attrs checks. split; [|split].
  - induction checks as [|[name value] r IH]; cbn [check_attrs].
    + split; [intros _ name value []|reflexivity].
    + destruct (dget attrs name) as [v|] eqn:E.
      * destruct (String.eqb_spec (lower v) value) as [X|X].
        -- rewrite IH. split; intros H; [intros n' v' [Y|Y]; [injection Y as <- <-; eauto|auto]|intros; apply H; now right].
        -- split; [discriminate|]. intros H. destruct (H name value) as (v' & E' & Y); [now left|]. congruence.
      * split; [discriminate|]. intros H. destruct (H name value) as (v' & E' & _); [now left|]. congruence.
  - intros name value -> E. cbn. now rewrite E.
  - intros name value v -> E X. cbn. rewrite E. destruct (String.eqb_spec (lower v) value); [contradiction|reflexivity].
Qed.
Print Assumptions c89_attributes.
Theorem c89_errors :
  forall f mapping checks, check_attrs (mf_attrs f) checks = Ok tt ->
  (forall role, In role ["nodes_lon"; "nodes_lat"] -> (forall v, ~ Mapped (mf_nums f) mapping role v) -> load_from_varnames f mapping checks = Err KeyError) /\
  (forall lon lat, Mapped (mf_nums f) mapping "nodes_lon" lon -> Mapped (mf_nums f) mapping "nodes_lat" lat ->
     length (nv_vals lat) <> 1 -> length (nv_vals lat) <> length (nv_vals lon) -> load_from_varnames f mapping checks = Err ValueError) /\
  (forall lon lat, Mapped (mf_nums f) mapping "nodes_lon" lon -> Mapped (mf_nums f) mapping "nodes_lat" lat -> length (nv_vals lat) = length (nv_vals lon) ->
     (forall v, ~ Mapped (mf_ints f) mapping "faces" v) -> load_from_varnames f mapping checks = Err KeyError).
Proof.
  intros f mapping checks Hc.
  assert (K : forall A (vars : dict A) role, (forall v, ~ Mapped vars mapping role v) -> look vars mapping role = Err KeyError).
  { intros A vars role H. destruct (look vars mapping role) eqn:E; [apply look_mapped in E; now apply H in E|].
    unfold look in E. destruct (dget mapping role) as [n|]; [destruct (dget vars n)|]; congruence. }
  split; [|split].
  - intros role [<-|[<-|[]]] H; apply K in H; unfold load_from_varnames; rewrite Hc; cbn [bind]; [now rewrite H|].
    destruct (look (mf_nums f) mapping "nodes_lon") eqn:E; cbn [bind]; [now rewrite H|].
    unfold look in E. destruct (dget mapping "nodes_lon") as [n|]; [destruct (dget (mf_nums f) n)|]; congruence.
  - intros lon lat H1 H2 L1 L2. apply look_mapped in H1, H2. unfold load_from_varnames. rewrite Hc. cbn [bind]. rewrite H1. cbn [bind]. rewrite H2. cbn [bind].
    unfold column at 1. destruct (Nat.eqb_spec (length (nv_vals lat)) (length (nv_vals lon))); [contradiction|].
    destruct (nv_vals lat) as [|q [|]]; try reflexivity. cbn in L1. contradiction.
  - intros lon lat H1 H2 L H. apply look_mapped in H1, H2. apply K in H. unfold load_from_varnames. rewrite Hc. cbn [bind]. rewrite H1. cbn [bind]. rewrite H2. cbn [bind].
    unfold column at 1. rewrite L, Nat.eqb_refl. cbn [bind]. now rewrite H.
Qed.
Print Assumptions c89_errors.
