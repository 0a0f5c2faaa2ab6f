(** Theorems about datasets as objects (C93). *)
From Coq Require Import String.
From Verif Require Import Common CommonProofs GridTypeModel GridTypeProofs DsetModel.
Open Scope string_scope.
Open Scope list_scope.
Open Scope nat_scope.

Section Datasets.
  Context {S F G T V : Type}.
  Context (get_dataset : S -> result F) (filepath : F -> string) (grid_from : F -> option T -> result G)
          (variables_from : G -> F -> result (dict V)) (attributes_from : F -> dict V).
  Notation new := (new (T := T) get_dataset filepath grid_from variables_from attributes_from).
  Notation from_netCDF := (from_netCDF get_dataset filepath grid_from variables_from attributes_from).

  Lemma dict_at_app (h : heap V) l r : r < length h -> dict_at (h ++ l) r = dict_at h r.
  Proof. intros H. unfold dict_at. now apply app_nth1. Qed.
  Lemma dict_at_new (h : heap V) d l : dict_at (h ++ d :: l) (length h) = d.
  Proof. unfold dict_at. rewrite app_nth2 by lia. now rewrite Nat.sub_diag. Qed.
  Lemma dict_at_second (h : heap V) d e l : dict_at (h ++ d :: e :: l) (length h + 1) = e.
  Proof. unfold dict_at. rewrite app_nth2 by lia. replace (length h + 1 - length h) with 1 by lia. reflexivity. Qed.
  Lemma put_at (h : heap V) r k v r' : r < length h -> dict_at (put h r k v) r' = if r' =? r then dset (dict_at h r) k v else dict_at h r'.
  Proof.
    unfold dict_at, put. revert r r'. induction h as [|d h IH]; intros [|r] [|r'] L; cbn in L; try lia; cbn [firstn skipn app nth Nat.eqb]; auto.
    rewrite (IH r r') by lia. reflexivity.
  Qed.
  Lemma read_file_parts h src topo t p h' d : read_file get_dataset filepath grid_from variables_from attributes_from h src topo t p = Ok (h', d) ->
    exists f g vs, get_dataset src = Ok f /\ grid_from f topo = Ok g /\ variables_from g f = Ok vs /\
      h' = h ++ [vs; attributes_from f] /\ d = mkDs (Some (filepath f)) (Some g) t p (length h) (length h + 1).
  Proof.
    unfold read_file. intros E. apply bind_ok in E as (f & Ef & E). apply bind_ok in E as (g & Eg & E). apply bind_ok in E as (vs & Ev & E).
    unfold alloc in E. cbn [fst snd] in E. injection E as <- <-. exists f, g, vs. rewrite <- app_assoc, app_length. auto 6.
  Qed.
  Lemma read_file_ok h src topo t p f g vs : get_dataset src = Ok f -> grid_from f topo = Ok g -> variables_from g f = Ok vs ->
    read_file get_dataset filepath grid_from variables_from attributes_from h src topo t p = Ok (h ++ [vs; attributes_from f], mkDs (Some (filepath f)) (Some g) t p (length h) (length h + 1)).
  Proof.
    intros Ef Eg Ev. unfold read_file. rewrite Ef. cbn [bind]. rewrite Eg. cbn [bind]. rewrite Ev. cbn [bind]. unfold alloc. cbn [fst snd].
    rewrite <- app_assoc, app_length. reflexivity.
  Qed.

  (** ** C93 *)
  (** From parts: the parts given, else empty dicts of its own. *)
Theorem c93_parts : forall h grid variables attributes topo, (forall r, variables = Some r -> r < length h) -> (forall r, attributes = Some r -> r < length h) ->
    exists h' d, new h None grid variables topo attributes = Ok (h', d) /\ ds_filename d = None /\ ds_grid d = grid /\ get_time d = Ok None /\ get_depth d = Ok None /\
      (forall r, r < length h -> dict_at h' r = dict_at h r) /\
      match variables with Some r => ds_variables d = r | None => length h <= ds_variables d /\ dict_at h' (ds_variables d) = [] end /\
      match attributes with Some r => ds_attributes d = r | None => length h <= ds_attributes d /\ dict_at h' (ds_attributes d) = [] end /\
      (variables = None -> attributes = None -> ds_variables d <> ds_attributes d).
  Proof.
    intros h grid variables attributes topo Hv Ha. unfold new, alloc. destruct variables as [rv|], attributes as [ra|]; cbn [fst snd];
      (do 2 eexists; split; [reflexivity|]); cbn [ds_filename ds_grid ds_variables ds_attributes get_time get_depth ds_time ds_depth]; rewrite ?app_length; cbn [length];
      repeat (split; [first [reflexivity|now intros; rewrite ?dict_at_app by (rewrite ?app_length; cbn [length]; lia)|split; [lia|first [apply dict_at_new|rewrite <- app_length; apply (dict_at_new (h ++ [[]]))|rewrite dict_at_app by (rewrite app_length; cbn [length]; lia); apply dict_at_new|replace (length h + 1) with (length (h ++ [[] : dict V])) by (rewrite app_length; reflexivity); apply dict_at_new]]]|]);
      try (intros; lia || discriminate).
  Qed.
  (** From a file: grid, variables and attributes of the file, in dicts of its own. *)
Theorem c93_file : forall h src topo h' d, from_netCDF h src false false topo = Ok (h', d) ->
    exists f g vs, get_dataset src = Ok f /\ grid_from f topo = Ok g /\ variables_from g f = Ok vs /\
      ds_filename d = Some (filepath f) /\ ds_grid d = Some g /\ dict_at h' (ds_variables d) = vs /\ dict_at h' (ds_attributes d) = attributes_from f /\
      get_time d = Ok None /\ get_depth d = Ok None /\
      length h <= ds_variables d /\ length h <= ds_attributes d /\ ds_variables d <> ds_attributes d /\ (forall r, r < length h -> dict_at h' r = dict_at h r).
  Proof.
    intros h src topo h' d E. unfold from_netCDF in E. cbn [new alloc bind fst snd init_from orb] in E.
    apply read_file_parts in E as (f & g & vs & Ef & Eg & Ev & -> & ->). exists f, g, vs. cbn [ds_filename ds_grid ds_variables ds_attributes get_time get_depth ds_time ds_depth].
    repeat (split; [assumption || reflexivity|]). split; [apply dict_at_new|]. split.
    - apply dict_at_second.
    - rewrite !app_length. cbn [length]. repeat split; try lia. intros r Hr. rewrite !dict_at_app by (rewrite ?app_length; lia). reflexivity.
  Qed.
Theorem c93_file_succeeds : forall h src topo f g vs, get_dataset src = Ok f -> grid_from f topo = Ok g -> variables_from g f = Ok vs ->
    exists h' d, from_netCDF h src false false topo = Ok (h', d).
  Proof.
    intros h src topo f g vs Ef Eg Ev. unfold from_netCDF. cbn [new alloc bind fst snd init_from orb]. rewrite (read_file_ok _ _ _ _ _ _ _ _ Ef Eg Ev). eauto.
  Qed.
  (** A file and parts are refused, as are separate files. *)
Theorem c93_refused : forall h src topo,
    (forall grid variables attributes, grid <> None \/ variables <> None \/ attributes <> None -> new h (Some src) grid variables topo attributes = Err ValueError) /\
    (forall gf vf, gf = true \/ vf = true -> from_netCDF h src gf vf topo = Err NotImplementedError) /\
    (forall e, get_dataset src = Err e -> from_netCDF h src false false topo = Err e /\ new h (Some src) None None topo None = Err e).
  Proof.
    intros h src topo. split; [|split].
    - intros grid variables attributes H. unfold new. destruct grid, variables, attributes; try reflexivity. destruct H as [H|[H|H]]; congruence.
    - intros gf vf H. unfold from_netCDF. cbn [new alloc bind fst snd init_from]. destruct gf, vf; try reflexivity. destruct H; discriminate.
    - intros e E. unfold from_netCDF. cbn [new alloc bind fst snd init_from orb]. unfold read_file. rewrite E. auto.
  Qed.
  (** The constructor given a file reads what from_netCDF reads without a topology. *)
Theorem c93_constructor_partial : forall h src topo h1 d1, new h (Some src) None None topo None = Ok (h1, d1) ->
    exists h2 d2, from_netCDF h src false false None = Ok (h2, d2) /\ ds_filename d1 = ds_filename d2 /\ ds_grid d1 = ds_grid d2 /\
      dict_at h1 (ds_variables d1) = dict_at h2 (ds_variables d2) /\ dict_at h1 (ds_attributes d1) = dict_at h2 (ds_attributes d2).
  Proof.
    intros h src topo h1 d1 E. cbn [new init_from orb] in E. apply read_file_parts in E as (f & g & vs & Ef & Eg & Ev & -> & ->).
    destruct (c93_file_succeeds h src None f g vs Ef Eg Ev) as (h2 & d2 & E2). exists h2, d2. split; [exact E2|].
    destruct (c93_file _ _ _ _ _ E2) as (f' & g' & vs' & Ef' & Eg' & Ev' & A & B & C & D & _). rewrite Ef in Ef'. injection Ef' as <-. rewrite Eg in Eg'. injection Eg' as <-.
    rewrite Ev in Ev'. injection Ev' as <-. cbn [ds_filename ds_grid ds_variables ds_attributes]. rewrite A, B, C, D. repeat split.
    - apply dict_at_new.
    - apply dict_at_second.
  Qed.
  (** ... but without time and depth, ... *)
Theorem c93_time_refuted : forall h src topo h1 d1, new h (Some src) None None topo None = Ok (h1, d1) ->
    get_time d1 = Err AttributeError /\ get_depth d1 = Err AttributeError.
  Proof.
    intros h src topo h1 d1 E. cbn [new init_from orb] in E. apply read_file_parts in E as (f & g & vs & _ & _ & _ & _ & ->). split; reflexivity.
  Qed.
  (** ... whatever topology is passed, ... *)
Theorem c93_topology_refuted : forall h src topo topo', new h (Some src) None None topo None = new h (Some src) None None topo' None.
  Proof. reflexivity. Qed.
  (** ... and attributes passed with a file are refused, not ignored. *)
Theorem c93_attributes_refuted : forall h src topo r, new h (Some src) None None topo (Some r) = Err ValueError.
  Proof. reflexivity. Qed.
  (** Items. *)
Theorem c93_items : forall (h : heap V) (d : dataset G) k,
    (forall v, getitem h d k = Ok v <-> dget (dict_at h (ds_variables d)) k = Some v) /\ (dget (dict_at h (ds_variables d)) k = None -> getitem h d k = Err KeyError).
  Proof. intros h d k. unfold getitem. destruct (dget (dict_at h (ds_variables d)) k) as [w|]; split; intros; try split; congruence. Qed.
  (** Datasets made without variables do not see each other's. *)
Theorem c93_separate : forall h g1 g2 h1 d1 h2 d2 k v, new h None g1 None None None = Ok (h1, d1) -> new h1 None g2 None None None = Ok (h2, d2) ->
    getitem (put h2 (ds_variables d1) k v) d1 k = Ok v /\ getitem (put h2 (ds_variables d1) k v) d2 k = Err KeyError.
  Proof.
    intros h g1 g2 h1 d1 h2 d2 k v E1 E2. cbn [new alloc] in E1, E2. injection E1 as <- <-. injection E2 as <- <-. unfold getitem. cbn [ds_variables].
    rewrite !put_at by (rewrite !app_length; cbn [length]; lia). rewrite Nat.eqb_refl, dget_dset, String.eqb_refl. split; [reflexivity|].
    rewrite !app_length. cbn [length]. destruct (Nat.eqb_spec (length h + 1 + 1) (length h)); [lia|].
    rewrite dict_at_app by (rewrite !app_length; cbn [length]; lia).
    replace (length h + 1 + 1) with (length ((h ++ [[] : dict V]) ++ [[]])) by (rewrite !app_length; cbn [length]; lia). rewrite dict_at_new. reflexivity.
  Qed.
  (** Those made from one dict do. *)
Theorem c93_shared_refuted : forall h r g1 g2 h1 d1 h2 d2 k v, r < length h -> new h None g1 (Some r) None None = Ok (h1, d1) -> new h1 None g2 (Some r) None None = Ok (h2, d2) ->
    getitem (put h2 (ds_variables d1) k v) d2 k = Ok v /\ dget (dict_at (put h2 (ds_variables d1) k v) r) k = Some v.
  Proof.
    intros h r g1 g2 h1 d1 h2 d2 k v L E1 E2. cbn [new alloc] in E1, E2. injection E1 as <- <-. injection E2 as <- <-. unfold getitem. cbn [ds_variables].
    rewrite !put_at by (rewrite !app_length; cbn [length]; lia). rewrite Nat.eqb_refl, dget_dset, String.eqb_refl. auto.
  Qed.
End Datasets.
Print Assumptions c93_parts.
Print Assumptions c93_file.
Print Assumptions c93_file_succeeds.
Print Assumptions c93_refused.
Print Assumptions c93_constructor_partial.
Print Assumptions c93_time_refuted.
Print Assumptions c93_topology_refuted.
Print Assumptions c93_attributes_refuted.
Print Assumptions c93_items.
Print Assumptions c93_separate.
Print Assumptions c93_shared_refuted.

(** ** Example: a file named "a.nc" and a grid that needs a topology. *)
Definition demo_open (s : string) : result string := if String.eqb s "a.nc" then Ok s else Err ValueError.
Definition demo_grid (f : string) (t : option (dict string)) : result string := match t with Some _ => Ok "by topology" | None => Ok "by names" end.
Definition demo_vars (g f : string) : result (dict nat) := Ok [("u", 1); ("v", 2)].
Definition demo_atts (f : string) : dict nat := [("title", 7)].
Example c93_example :
  (exists h d, from_netCDF demo_open (fun f => f) demo_grid demo_vars demo_atts [] "a.nc" false false (Some [("node_lon", "x")]) = Ok (h, d) /\
     ds_grid d = Some "by topology" /\ getitem h d "v" = Ok 2 /\ getitem h d "w" = Err KeyError /\ get_time d = Ok None) /\
  (exists h d, new demo_open (fun f => f) demo_grid demo_vars demo_atts [] (Some "a.nc") None None (Some [("node_lon", "x")]) None = Ok (h, d) /\
     ds_grid d = Some "by names" /\ get_time d = Err AttributeError) /\
  from_netCDF demo_open (fun f => f) demo_grid demo_vars demo_atts [] "b.nc" false false None = Err ValueError.
Proof.
  split; [|split; [|reflexivity]]; do 2 eexists; (split; [vm_compute; reflexivity|repeat split]).
Qed.
