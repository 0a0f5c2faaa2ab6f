(** Theorems about finding the variables of depths (C87) and loading sigma
    depths (C88). *)
From Coq Require Import String.
From Verif Require Import Common CommonProofs TimeModel GridTypeModel GridTypeSpec GridTypeProofs SearchModel SearchSpec SearchProofs SearchProps TFileModel TFileProps LoadModel LoadProofs LoadProps DepthModel SLoadModel SLoadSpec SLoadProofs.
Open Scope string_scope.
Open Scope list_scope.
Open Scope nat_scope.

Lemma first_exists {A} (P : A -> Prop) (dec : forall x, {P x} + {~ P x}) l v : In v l -> P v -> exists w, FirstOf P l w.
Proof.
  induction l as [|x l IH]; intros I H; [contradiction|]. destruct (dec x) as [Hx|Hx].
  - exists x, [], l. repeat split; auto.
  - destruct I as [->|I]; [contradiction|]. destruct (IH I H) as (w & pre & post & -> & C & N). exists w, (x :: pre), post.
    split; [reflexivity|]. split; [exact C|]. intros y [<-|Hy]; auto.
Qed.
Lemma attr_dec (o : option string) q : {o = Some q} + {~ o = Some q}.
Proof. decide equality. apply string_dec. Qed.
Lemma none_of_dec {A} (P : A -> Prop) (dec : forall x, {P x} + {~ P x}) l : (exists v, In v l /\ P v) \/ NoneOf P l.
Proof.
  induction l as [|x l [(v & I & H)|N]].
  - right. intros x [].
  - left. exists v. cbn. auto.
  - destruct (dec x) as [H|H]; [left; exists x; cbn; auto|right; intros y [<-|Hy]; auto].
Qed.
Lemma long_answer_exists f q v : In v (f_vars f) -> Carries v q -> exists w, LongAnswer f q w.
Proof.
  intros I H. destruct (none_of_dec (fun x => v_long x = Some q) (fun x => attr_dec _ _) (f_vars f)) as [(x & Ix & Hx)|N].
  - destruct (first_exists (fun x => v_long x = Some q) (fun x => attr_dec _ _) _ _ Ix Hx) as (w & Hw). exists w. now left.
  - destruct H as [H|H]; [exfalso; now apply (N v I)|].
    destruct (first_exists (fun x => v_std x = Some q) (fun x => attr_dec _ _) _ _ I H) as (w & Hw). exists w. right. auto.
Qed.
Lemma long_answer_carries f q w : LongAnswer f q w -> In w (f_vars f) /\ Carries w q.
Proof.
  intros [(p1 & p2 & E & C & _)|(_ & p1 & p2 & E & C & _)]; (split; [rewrite E; apply in_or_app; cbn; auto|]); [now left|now right].
Qed.

(** C87: in a file that calls its variables as ROMS does, everything is found. *)
Theorem c87_roms :
  forall f role name labels v, In (role, name, labels) roms_convention -> NamedAndLabelled f name labels v ->
  finds roms_names roms_cf f role = Some (Some v).
Proof.
  intros f role name labels v H. assert (N1 : NoDup (map fst roms_names)) by (repeat constructor; cbn; intuition congruence).
  assert (N2 : NoDup (map fst roms_cf)) by (repeat constructor; cbn; intuition congruence).
  cbn in H. repeat (destruct H as [H|H]; [injection H as <- <- <-; apply finds_unique; cbn; tauto|]). contradiction.
Qed.
Print Assumptions c87_roms.
(** Nothing else is looked for. *)
Theorem c87_roles :
  (forall f role, finds roms_names roms_cf f role <> None <-> In role (map (fun c => fst (fst c)) roms_convention)) /\
  (forall f role, finds fvcom_names fvcom_cf f role <> None <-> In role (map (fun c => fst (fst c)) fvcom_convention)) /\
  (forall f role, finds level_names level_cf f role <> None <-> role = "depth_levels").
Proof.
  assert (G : forall names cf f role, NoDup (map fst names) -> NoDup (map fst cf) -> map fst names = map fst cf ->
     (finds names cf f role <> None <-> In role (map fst names))).
  { intros names cf f role N1 N2 E. destruct (c55_roles names cf f f N1 N2) as (_ & R). unfold finds.
    rewrite (dget_key (search_vars names cf f f) role). unfold keys. rewrite R. rewrite !is_role_get. rewrite !dget_key. unfold keys. rewrite E. tauto. }
  repeat split; intros H.
  1,2: apply (G roms_names roms_cf f) ; auto; repeat constructor; cbn; intuition congruence.
  1,2: apply (G fvcom_names fvcom_cf f) ; auto; repeat constructor; cbn; intuition congruence.
  - apply G in H; [cbn in H; intuition congruence|repeat constructor; cbn; intuition congruence|repeat constructor; cbn; intuition congruence|reflexivity].
  - apply G; [repeat constructor; cbn; intuition congruence|repeat constructor; cbn; intuition congruence|reflexivity|cbn; auto].
Qed.
Print Assumptions c87_roles.
(** The same holds of FVCOM files whose variables carry the labels of their
    roles alone. *)
Theorem c87_fvcom_partial :
  forall f role name labels v, In (role, name, labels) fvcom_convention -> NamedAndLabelled f name labels v ->
  finds fvcom_names fvcom_cf f role = Some (Some v).
Proof.
  intros f role name labels v H. assert (N1 : NoDup (map fst fvcom_names)) by (repeat constructor; cbn; intuition congruence).
  assert (N2 : NoDup (map fst fvcom_cf)) by (repeat constructor; cbn; intuition congruence).
  cbn in H. repeat (destruct H as [H|H]; [injection H as <- <- <-; apply finds_unique; cbn; tauto|]). contradiction.
Qed.
Print Assumptions c87_fvcom_partial.
(** But layers and levels have one label.  When any variable carries it, as in
    files written by FVCOM, the same variable is taken for both. *)
Theorem c87_fvcom_levels_refuted :
  (forall f v, In v (f_vars f) -> Carries v fvcom_label ->
     exists w, In w (f_vars f) /\ Carries w fvcom_label /\
       finds fvcom_names fvcom_cf f "siglay" = Some (Some w) /\ finds fvcom_names fvcom_cf f "siglev" = Some (Some w)) /\
  (** and then values on levels are refused *)
  (forall (column : list Q) sbc bbc pts, 2 <= length column ->
     fvcom_alphas column (length column) (Some (length column + 1)) sbc bbc pts = Err ValueError).
Proof.
  split.
  - intros f v I C. destruct (long_answer_exists f _ v I C) as (w & W). destruct (long_answer_carries _ _ _ W) as (Iw & Cw).
    exists w. split; [exact Iw|]. split; [exact Cw|].
    assert (N1 : NoDup (map fst fvcom_names)) by (repeat constructor; cbn; intuition congruence).
    assert (N2 : NoDup (map fst fvcom_cf)) by (repeat constructor; cbn; intuition congruence).
    assert (B : forall q, Best f f [fvcom_label] [q] (Some w)).
    { intros q. left. exists fvcom_label. split; [|exact W]. exists [], []. repeat split; auto. now exists w. }
    assert (G : forall k q, In (k, [q]) fvcom_names -> In (k, [fvcom_label]) fvcom_cf -> finds fvcom_names fvcom_cf f k = Some (Some w)).
    { intros k q Hk1 Hk2. destruct (finds_best fvcom_names fvcom_cf f k _ _ N1 N2 Hk1 Hk2) as (r & -> & R). f_equal.
      exact (c55_precedence_unique _ _ _ _ _ _ R (B q)). }
    split; [apply (G _ "siglay")|apply (G _ "siglev")]; cbn; auto.
  - intros column sbc bbc pts L. unfold fvcom_alphas. destruct column as [|x column]; [cbn in L; lia|].
    cbn [argmax argmin bind]. unfold s_alphas. 
    destruct (Nat.eqb_spec (length (x :: column)) 1); [lia|]. 
    destruct (length (x :: column) + 1) as [|[|n0]] eqn:E; [lia|lia|]. rewrite Bool.orb_false_r. 
    destruct (Nat.eqb_spec (S (S n0)) (length (x :: column))); [lia|]. reflexivity.
Qed.
Print Assumptions c87_fvcom_levels_refuted.

(** A file laid out as FVCOM's: both carry the label. *)
Definition demo_fvcom : nfile := mkNfile 0
  [mkNvar "siglay" (Some "Sigma Layers") (Some fvcom_label); mkNvar "siglev" (Some "Sigma Levels") (Some fvcom_label);
   mkNvar "h" (Some "Bathymetry") (Some "sea_floor_depth_below_geoid"); mkNvar "zeta" None (Some "sea_surface_height_above_geoid")].
Example c87_fvcom_example :
  option_map (option_map v_name) (finds fvcom_names fvcom_cf demo_fvcom "siglev") = Some (Some "siglay") /\
  option_map (option_map v_name) (finds fvcom_names fvcom_cf demo_fvcom "bathymetry") = Some (Some "h").
Proof. split; reflexivity. Qed.

(** Depth levels are found by name when no variable is labelled with a letter. *)
Theorem c87_levels_partial :
  forall f, (forall x l, In x (f_vars f) -> Carries x l -> ~ In l ["d"; "e"; "p"; "t"; "h"]) ->
  exists r, finds level_names level_cf f "depth_levels" = Some r /\
    match r with
    | Some v => RoleAnswer (NameAnswer f) ["depth"; "depth_levels"; "Depth"] v
    | None => forall x, In x (f_vars f) -> ~ In (v_name x) ["depth"; "depth_levels"; "Depth"]
    end.
Proof.
  intros f H.
  destruct (finds_best level_names level_cf f "depth_levels" ["depth"; "depth_levels"; "Depth"] ["d"; "e"; "p"; "t"; "h"]) as (r & -> & B);
    try (repeat constructor; cbn; intuition congruence).
  exists r. split; [reflexivity|]. destruct r as [v|]; cbn [Best] in B.
  - destruct B as [(q & (pre & post & E & _) & A)|(_ & [A|(_ & X & _)])]; [|exact A|congruence].
    exfalso. destruct (long_answer_carries _ _ _ A) as (I & C). apply (H v q I C). rewrite E. apply in_or_app. cbn. auto.
  - destruct B as (_ & B & _). intros x I Hn.
    destruct (first_exists (fun y => v_name y = v_name x) (fun y => string_dec _ _) _ _ I eq_refl) as (w & W).
    exact (B _ Hn w W).
Qed.
Print Assumptions c87_levels_partial.
(** The standard name "depth" is not looked for (its letters are), so levels
    under another name are not found; and a variable labelled with a letter is
    taken before one named "depth". *)
Theorem c87_level_standard_name_refuted :
  (exists f v, f_vars f = [v] /\ v_std v = Some "depth" /\ finds level_names level_cf f "depth_levels" = Some None) /\
  (exists f v w, f_vars f = [v; w] /\ v_name v = "depth" /\ v_std v = Some "depth" /\ v_name w = "temp" /\ v_std w = Some "t" /\
     finds level_names level_cf f "depth_levels" = Some (Some w)).
Proof.
  split.
  - exists (mkNfile 0 [mkNvar "lev" None (Some "depth")]), (mkNvar "lev" None (Some "depth")). repeat split.
  - exists (mkNfile 0 [mkNvar "depth" None (Some "depth"); mkNvar "temp" None (Some "t")]), (mkNvar "depth" None (Some "depth")), (mkNvar "temp" None (Some "t")). repeat split.
Qed.
Print Assumptions c87_level_standard_name_refuted.
Definition demo_roms : nfile := mkNfile 0
  [mkNvar "h" (Some "bathymetry at RHO-points") None; mkNvar "hraw" (Some "working bathymetry") None; mkNvar "Cs_r" (Some "S-coordinate stretching curves at RHO-points") None].
Example c87_roms_example :
  NamedAndLabelled demo_roms "h" ["bathymetry at RHO-points"; "Final bathymetry at RHO-points"] (mkNvar "h" (Some "bathymetry at RHO-points") None) /\
  finds roms_names roms_cf demo_roms "bathymetry" = Some (Some (mkNvar "h" (Some "bathymetry at RHO-points") None)) /\
  finds roms_names roms_cf demo_roms "zeta" = Some None.
Proof.
  split; [|split; reflexivity]. unfold NamedAndLabelled, Carries, demo_roms. cbn [f_vars]. repeat split.
  - now left.
  - intros x [<-|[<-|[<-|[]]]]; cbn; congruence.
  - intros x l [<-|[<-|[<-|[]]]]; auto; cbn; intuition congruence.
Qed.

(** ** C88: loading a sigma depth *)
Section Sigma.
  Context (dateutil : string -> dparse) (cftime : string -> option (Z * Z * Z)).
  Local Notation load := (load_sdepth dateutil cftime).

  Lemma load_sigma_parts g ds nc a cls c d : load g ds nc a cls c = Ok d ->
    exists t bs bl bv z, s_time dateutil cftime ds nc a = Ok t /\ s_bathy g nc a = Ok (bs, bl, bv) /\ s_zeta g nc a t bv = Ok z /\ cls <> CBase /\
      d = mkSdepth (match sa_name a with Some n => n | None => append (class_name cls) (append "_" (IsoModel.dec (N.of_nat c))) end) t bs bl (fst z) (snd z) (s_terms nc a)
              (match sa_vtransform a with Some v => v | None => 2%Z end)
              (match sa_surface a with Some s => s | None => "extrapolate" end)
              (match sa_bottom a with Some s => s | None => "mask" end).
  Proof.
    unfold load_sdepth. destruct cls; [discriminate| |]; intros H;
      (destruct (s_time dateutil cftime ds nc a) as [t|e]; cbn [bind] in H; [|discriminate];
       destruct (s_bathy g nc a) as [[[bs bl] bv]|e]; cbn [bind] in H; [|discriminate];
       destruct (s_zeta g nc a t bv) as [z|e] eqn:Z; cbn [bind] in H; [|discriminate];
       injection H as <-; exists t, bs, bl, bv, z; repeat split; auto; discriminate).
  Qed.
  Lemma get_found_iff nc k r : get_found nc k = Some r <-> Found nc k r.
  Proof. unfold get_found, Found. destruct (dget nc k) as [[x|]|]; split; congruence. Qed.
  Lemma get_found_none nc k : get_found nc k = None <-> NotFound nc k.
  Proof.
    split.
    - intros H r F. apply get_found_iff in F. congruence.
    - intros H. destruct (get_found nc k) as [r|] eqn:E; auto. apply get_found_iff in E. now apply H in E.
  Qed.
  Lemma terms_get nc : NoDup (keys nc) -> forall a, sa_terms a = None -> forall k v,
    dget (s_terms nc a) k = Some v <-> k <> "bathymetry" /\ k <> "zeta" /\ exists r, Found nc k r /\ v = Values (fr_name r).
  Proof.
    intros N a Ha. unfold s_terms. rewrite Ha.
    assert (G : forall l d, NoDup (keys l) -> forall k v,
      dget (fold_left (fun d kv => match snd kv with
                               | Some r => if isin (fst kv) ["bathymetry"; "zeta"] then d else dset d (fst kv) (Values (fr_name r))
                               | None => d end) l d) k = Some v <->
      (k <> "bathymetry" /\ k <> "zeta" /\ exists r, Found l k r /\ v = Values (fr_name r)) \/
      (dget d k = Some v /\ (k = "bathymetry" \/ k = "zeta" \/ NotFound l k))).
    { induction l as [|[k0 o] l IH]; intros d Nl k v.
      - cbn. split; [intros H; right; split; auto; right; right; intros r; unfold Found; cbn; congruence|].
        intros [(_ & _ & r & F & _)|(H & _)]; [discriminate F|exact H].
      - cbn [keys map fst] in Nl. apply NoDup_cons_iff in Nl. destruct Nl as [Nk Nl]. cbn [fold_left fst snd].
        rewrite IH by exact Nl.
        assert (Fk : forall r, Found l k0 r -> False).
        { intros r F. apply Nk. apply dget_key. unfold Found in F. congruence. }
        assert (Fi : forall r, Found ((k0, o) :: l) k r <-> (k = k0 /\ o = Some r) \/ (k <> k0 /\ Found l k r)).
        { intros r. unfold Found. cbn [dget]. destruct (String.eqb_spec k k0) as [->|D]; split; intros X.
          - left. split; congruence.
          - destruct X as [[_ X]|[X _]]; congruence.
          - now right.
          - destruct X as [[X _]|[_ X]]; congruence. }
        assert (Is : isin k0 ["bathymetry"; "zeta"] = true <-> k0 = "bathymetry" \/ k0 = "zeta").
        { cbn. destruct (String.eqb_spec k0 "bathymetry"); cbn; [intuition congruence|]. destruct (String.eqb_spec k0 "zeta"); cbn; intuition congruence. }
        assert (NFk : k <> k0 -> (NotFound ((k0, o) :: l) k <-> NotFound l k)).
        { intros D. split; intros X r F; apply (X r); [rewrite Fi; auto|]. rewrite Fi in F. destruct F as [[F _]|[_ F]]; [contradiction|exact F]. }
        destruct (string_dec k k0) as [->|D].
        + assert (NFl : NotFound l k0) by (intros r F; exact (Fk r F)).
          destruct o as [r0|].
          * destruct (isin k0 ["bathymetry"; "zeta"]) eqn:I.
            -- pose proof (proj1 Is eq_refl) as I0. split.
               ++ intros [(A & B & _)|(H & _)]; [tauto|right; tauto].
               ++ intros [(A & B & _)|(H & _)]; [tauto|right; tauto].
            -- assert (I' : ~ (k0 = "bathymetry" \/ k0 = "zeta")) by (intros X; apply Is in X; discriminate).
               rewrite dget_dset, String.eqb_refl. split.
               ++ intros [(_ & _ & r & F & _)|(H & _)]; [exfalso; exact (Fk r F)|]. left. split; [tauto|]. split; [tauto|].
                  exists r0. split; [rewrite Fi; auto|congruence].
               ++ intros [(_ & _ & r & F & ->)|(_ & [X|[X|X]])]; [|tauto|tauto|].
                  ** rewrite Fi in F. destruct F as [[_ F]|[F _]]; [|congruence]. injection F as ->. right. auto.
                  ** exfalso. apply (X r0). rewrite Fi. auto.
          * split.
            -- intros [(_ & _ & r & F & _)|(H & _)]; [exfalso; exact (Fk r F)|]. right. split; auto. right. right. intros r F. rewrite Fi in F. destruct F as [[_ F]|[F _]]; congruence.
            -- intros [(_ & _ & r & F & _)|(H & _)]; [|right; auto]. rewrite Fi in F. destruct F as [[_ F]|[F _]]; congruence.
        + assert (Dk : dget (match o with Some r => if isin k0 ["bathymetry"; "zeta"] then d else dset d k0 (Values (fr_name r)) | None => d end) k = dget d k).
          { destruct o as [r0|]; auto. destruct (isin k0 _); auto. rewrite dget_dset. destruct (String.eqb_spec k k0); [contradiction|reflexivity]. }
          rewrite Dk, (NFk D). split; intros [(A & B & r & F & E)|(H & X)]; try (right; tauto); left; (split; [exact A|]; split; [exact B|]; exists r; split; [|exact E]).
          * rewrite Fi. auto.
          * rewrite Fi in F. destruct F as [[F _]|[_ F]]; [contradiction|exact F]. }
    intros k v. rewrite G by exact N. cbn [dget]. split; [intros [H|[H _]]; [exact H|discriminate]|auto].
  Qed.
End Sigma.

(** The plain fields. *)
Theorem c88_fields :
  forall dateutil cftime g ds nc a cls c d, load_sdepth dateutil cftime g ds nc a cls c = Ok d ->
  (forall n, sa_name a = Some n -> sd_name d = n) /\
  (sa_name a = None -> sd_name d = append (match cls with CBase => "S_Depth" | CROMS => "ROMS_Depth" | CFVCOM => "FVCOM_Depth" end) (append "_" (IsoModel.dec (N.of_nat c)))) /\
  (forall v, sa_vtransform a = Some v -> sd_vtransform d = v) /\ (sa_vtransform a = None -> sd_vtransform d = 2%Z) /\
  (forall s, sa_surface a = Some s -> sd_surface d = s) /\ (sa_surface a = None -> sd_surface d = "extrapolate") /\
  (forall s, sa_bottom a = Some s -> sd_bottom d = s) /\ (sa_bottom a = None -> sd_bottom d = "mask").
Proof.
  intros dateutil cftime g ds nc a cls c d H. destruct (load_sigma_parts _ _ _ _ _ _ _ _ _ H) as (t & bs & bl & bv & z & _ & _ & _ & _ & ->).
  cbn. repeat split; intros; try match goal with E : _ = _ |- _ => rewrite E end; reflexivity.
Qed.
Print Assumptions c88_fields.
(** Without terms given, they are what was found, except bathymetry and zeta. *)
Theorem c88_terms_partial :
  forall dateutil cftime g ds nc a cls c d, NoDup (keys nc) -> load_sdepth dateutil cftime g ds nc a cls c = Ok d -> sa_terms a = None ->
  forall k v, dget (sd_terms d) k = Some v <-> k <> "bathymetry" /\ k <> "zeta" /\ exists r, Found nc k r /\ v = Values (fr_name r).
Proof.
  intros dateutil cftime g ds nc a cls c d N H Ha k v. destruct (load_sigma_parts _ _ _ _ _ _ _ _ _ H) as (t & bs & bl & bv & z & _ & _ & _ & _ & ->).
  cbn [sd_terms]. now apply terms_get.
Qed.
Print Assumptions c88_terms_partial.
(** The documentation says terms map components to names of variables, the rest
    being found.  They become the terms themselves: no variable is read, and what
    is not named is missing. *)
Theorem c88_terms_refuted :
  forall dateutil cftime g ds nc a cls c d terms, load_sdepth dateutil cftime g ds nc a cls c = Ok d -> sa_terms a = Some terms ->
  sd_terms d = map (fun kv => (fst kv, Passed (snd kv))) terms /\ (forall k n, dget (sd_terms d) k <> Some (Values n)).
Proof.
  intros dateutil cftime g ds nc a cls c d terms H Ha. destruct (load_sigma_parts _ _ _ _ _ _ _ _ _ H) as (t & bs & bl & bv & z & _ & _ & _ & _ & ->).
  cbn [sd_terms]. unfold s_terms. rewrite Ha. split; [reflexivity|]. intros k n.
  clear Ha. induction terms as [|[k0 x] r IH]; cbn; [discriminate|]. destruct (String.eqb k k0); [discriminate|exact IH].
Qed.
Print Assumptions c88_terms_refuted.
(** The time axis: given, of the zeta given, of the zeta found, or none. *)
Theorem c88_time :
  forall dateutil cftime g ds nc a cls c d, load_sdepth dateutil cftime g ds nc a cls c = Ok d ->
  (forall t, sa_time a = Some t -> sd_time d = TimeGiven t) /\
  (sa_time a = None -> forall t, sa_zeta a = ZVar (Some t) -> sd_time d = TimeGiven t) /\
  (sa_time a = None -> sa_zeta a = ZNone -> NotFound nc "zeta" -> sd_time d = TimeNow) /\
  (sa_time a = None -> sa_zeta a = ZNone -> forall r, Found nc "zeta" r ->
     exists x, time_from_netCDF dateutil cftime (tfile_of (fr_file r)) None (DVVar (tvar_of (fr_var r))) (sa_tz a) None None (sa_origin a) (sa_disp a) = Ok x /\
       sd_time d = match x with Axis t n => TimeRead t n | Constant => TimeNow end).
Proof.
  intros dateutil cftime g ds nc a cls c d H. destruct (load_sigma_parts _ _ _ _ _ _ _ _ _ H) as (t & bs & bl & bv & z & Ht & _ & _ & _ & ->).
  cbn [sd_time]. unfold s_time in Ht. repeat split.
  - intros t' E. rewrite E in Ht. congruence.
  - intros E t' Ez. rewrite E, Ez in Ht. congruence.
  - intros E Ez F. rewrite E, Ez in Ht. apply get_found_none in F. rewrite F in Ht. congruence.
  - intros E Ez r F. rewrite E, Ez in Ht. apply get_found_iff in F. rewrite F in Ht. unfold time_of in Ht.
    destruct (time_from_netCDF _ _ _ _ _ _ _ _ _ _) as [x|e]; cbn [bind] in Ht; [|discriminate]. exists x. split; [reflexivity|congruence].
Qed.
Print Assumptions c88_time.
(** Bathymetry: given, read as it is when it is on nodes, averaged when not. *)
Theorem c88_bathymetry :
  forall dateutil cftime g ds nc a cls c d, load_sdepth dateutil cftime g ds nc a cls c = Ok d ->
  (sa_bathy a = true -> sd_bathy d = FromArg) /\
  (sa_bathy a = false -> exists r l, Found nc "bathymetry" r /\ PutsAt g (fr_var r) (Some l) /\
     ((Mentions "node" l /\ sd_bathy d = FromFile (fr_name r) /\ sd_bathy_loc d = Some l) \/
      (~ Mentions "node" l /\ sd_bathy d = Averaged (fr_name r) /\
         exists x y rest l', lv_shape (fr_var r) = x :: y :: rest /\ ga_infer g None ((x - 1) :: (y - 1) :: rest) = Ok (Some l') /\ sd_bathy_loc d = Some l'))).
Proof.
  intros dateutil cftime g ds nc a cls c d H. destruct (load_sigma_parts _ _ _ _ _ _ _ _ _ H) as (t & bs & bl & bv & z & _ & Hb & _ & _ & ->).
  cbn [sd_bathy sd_bathy_loc]. unfold s_bathy in Hb. split; intros Ea; rewrite Ea in Hb; [congruence|].
  destruct (get_found nc "bathymetry") as [r|] eqn:F; [|discriminate]. apply get_found_iff in F.
  apply bind_ok in Hb. destruct Hb as (n & Hn & Hb). unfold on_nodes in Hn. apply bind_ok in Hn. destruct Hn as (i & Hi & Hn).
  destruct i as [l|]; [|discriminate]. injection Hn as <-. exists r, l. split; [exact F|]. split; [exact Hi|].
  destruct (contains "node" l) eqn:C.
  - left. apply contains_spec in C. apply bind_ok in Hb. destruct Hb as (l' & Hl & Hb). injection Hb as <- <- _. split; [exact C|]. split; [reflexivity|].
    unfold construct_plain in Hl. unfold own_location in Hi, Hl. rewrite Hi in Hl. cbn [bind] in Hl. destruct (check_location (Some l)); cbn [bind] in Hl; congruence.
  - right. split; [intros X; apply contains_spec in X; congruence|]. apply bind_ok in Hb. destruct Hb as (sh & Hs & Hb).
    apply bind_ok in Hb. destruct Hb as (l' & Hl & Hb). injection Hb as <- <- _. split; [reflexivity|].
    unfold averaged2 in Hs. destruct (lv_shape (fr_var r)) as [|x [|y rest]]; try discriminate. injection Hs as <-.
    exists x, y, rest, l'. split; [reflexivity|]. unfold construct_plain in Hl.
    destruct (ga_infer g None _) as [[m|]|e] eqn:I; cbn [bind] in Hl; try discriminate.
    destruct (check_location (Some m)) as [[]|]; cbn [bind] in Hl; [|discriminate]. split; congruence.
Qed.
Print Assumptions c88_bathymetry.
(** Without a zeta the surface is at zero. *)
Theorem c88_no_zeta :
  forall dateutil cftime g ds nc a cls c d, load_sdepth dateutil cftime g ds nc a cls c = Ok d ->
  (sd_zeta d = Zero <-> sa_zeta a = ZNone /\ NotFound nc "zeta") /\ (sd_zeta d = FromArg <-> sa_zeta a <> ZNone).
Proof.
  intros dateutil cftime g ds nc a cls c d H. destruct (load_sigma_parts _ _ _ _ _ _ _ _ _ H) as (t & bs & bl & bv & z & _ & _ & Hz & _ & ->).
  cbn [sd_zeta]. unfold s_zeta in Hz. destruct (sa_zeta a) as [|zt|].
  - destruct (get_found nc "zeta") as [r|] eqn:F.
    + assert (NF : ~ NotFound nc "zeta") by (intros X; apply get_found_none in X; congruence).
      destruct bv as [b|]; [|discriminate]. apply bind_ok in Hz. destruct Hz as (n & _ & Hz). destruct n.
      * apply bind_ok in Hz. destruct Hz as (l & _ & Hz). injection Hz as <-. cbn. split; split; intros X; try discriminate; try (destruct X; congruence || contradiction); congruence.
      * apply bind_ok in Hz. destruct Hz as (sh & _ & Hz). apply bind_ok in Hz. destruct Hz as (l & _ & Hz). injection Hz as <-. cbn. split; split; intros X; try discriminate; try (destruct X; congruence || contradiction); congruence.
    + apply get_found_none in F. injection Hz as <-. cbn. split; split; intros X; auto; congruence.
  - injection Hz as <-. cbn. split; split; intros X; try discriminate; auto. destruct X; discriminate.
  - injection Hz as <-. cbn. split; split; intros X; try discriminate; auto. destruct X; discriminate.
Qed.
Print Assumptions c88_no_zeta.
(** What cannot be loaded. *)
Theorem c88_errors :
  forall dateutil cftime g ds nc a c,
  load_sdepth dateutil cftime g ds nc a CBase c = Err NotImplementedError /\
  (forall cls t, cls <> CBase -> s_time dateutil cftime ds nc a = Ok t -> sa_bathy a = false -> NotFound nc "bathymetry" ->
     load_sdepth dateutil cftime g ds nc a cls c = Err ValueError) /\
  (forall cls t r, cls <> CBase -> s_time dateutil cftime ds nc a = Ok t -> sa_bathy a = false -> Found nc "bathymetry" r ->
     PutsAt g (fr_var r) None -> load_sdepth dateutil cftime g ds nc a cls c = Err TypeError) /\
  (** flat values that are not on nodes, as on the faces of a mesh *)
  (forall cls t r l n, cls <> CBase -> s_time dateutil cftime ds nc a = Ok t -> sa_bathy a = false -> Found nc "bathymetry" r ->
     PutsAt g (fr_var r) (Some l) -> ~ Mentions "node" l -> lv_shape (fr_var r) = [n] -> load_sdepth dateutil cftime g ds nc a cls c = Err IndexError).
Proof.
  intros dateutil cftime g ds nc a c. split; [reflexivity|]. split; [|split].
  - intros cls t Hc Ht Ha F. apply get_found_none in F. unfold load_sdepth, s_bathy. rewrite Ht, Ha, F. destruct cls; [contradiction| |]; reflexivity.
  - intros cls t r Hc Ht Ha F P. apply get_found_iff in F. unfold PutsAt in P. unfold load_sdepth, s_bathy, on_nodes, own_location. rewrite Ht, Ha, F, P. destruct cls; [contradiction| |]; reflexivity.
  - intros cls t r l n Hc Ht Ha F P M S. apply get_found_iff in F. unfold PutsAt in P. unfold load_sdepth, s_bathy, on_nodes, own_location. rewrite Ht, Ha, F, P. cbn [bind].
    destruct (contains "node" l) eqn:C; [apply contains_spec in C; contradiction|]. cbn [bind]. rewrite S. destruct cls; [contradiction| |]; reflexivity.
Qed.
Print Assumptions c88_errors.
(** Bathymetry passed in and no zeta in the file: loaded, at the time of now
    unless a time is passed, with the surface at zero. *)
Theorem c88_without_zeta :
  forall dateutil cftime g ds nc a cls c, cls <> CBase -> sa_bathy a = true -> sa_zeta a = ZNone -> NotFound nc "zeta" ->
  exists d, load_sdepth dateutil cftime g ds nc a cls c = Ok d /\ sd_bathy d = FromArg /\ sd_zeta d = Zero /\
    sd_time d = match sa_time a with Some t => TimeGiven t | None => TimeNow end.
Proof.
  intros dateutil cftime g ds nc a cls c Hc Ha Hz F. apply get_found_none in F. unfold load_sdepth, s_time, s_bathy, s_zeta. rewrite Ha, Hz, F.
  destruct cls; [contradiction| |]; (destruct (sa_time a) as [t|]; cbn [bind fst snd]; (eexists; split; [reflexivity|]; cbn; auto)).
Qed.
Print Assumptions c88_without_zeta.
(** A zeta of fewer than three dimensions beside a bathymetry that is averaged. *)
Theorem c88_flat_zeta :
  forall dateutil cftime g ds nc a cls c t rb lb x y l' rz, cls <> CBase -> s_time dateutil cftime ds nc a = Ok t -> sa_bathy a = false -> sa_zeta a = ZNone ->
  Found nc "bathymetry" rb -> PutsAt g (fr_var rb) (Some lb) -> ~ Mentions "node" lb -> lv_shape (fr_var rb) = [x; y] ->
  construct_plain g None [x - 1; y - 1] = Ok l' ->
  Found nc "zeta" rz -> length (lv_shape (fr_var rz)) < 3 -> load_sdepth dateutil cftime g ds nc a cls c = Err IndexError.
Proof.
  intros dateutil cftime g ds nc a cls c t rb lb x y l' rz Hc Ht Ha Hz Fb P M S K Fz Lz. apply get_found_iff in Fb, Fz. unfold PutsAt in P.
  unfold load_sdepth, s_bathy, s_zeta, on_nodes, own_location. unfold own_location in P. rewrite Ht, Ha, Hz, Fb, P, Fz. cbn [bind].
  destruct (contains "node" lb) eqn:C; [apply contains_spec in C; contradiction|]. cbn [bind]. rewrite S. cbn [averaged2 bind]. rewrite K. cbn [bind].
  rewrite P. cbn [bind]. rewrite C. assert (Z : averaged3 (lv_shape (fr_var rz)) = Err IndexError).
  { destruct (lv_shape (fr_var rz)) as [|? [|? [|? ?]]]; try reflexivity. cbn in Lz. lia. }
  rewrite Z. destruct cls; [contradiction| |]; reflexivity.
Qed.
Print Assumptions c88_flat_zeta.
(** Bathymetry passed in, zeta in the file: the place of the bathymetry is asked
    of a variable that was not found. *)
Theorem c88_bathymetry_given_refuted :
  forall dateutil cftime g ds nc a cls c t r, cls <> CBase -> sa_bathy a = true -> sa_zeta a = ZNone -> Found nc "zeta" r ->
  s_time dateutil cftime ds nc a = Ok t -> load_sdepth dateutil cftime g ds nc a cls c = Err UnboundLocalError.
Proof.
  intros dateutil cftime g ds nc a cls c t r Hc Ha Hz F Ht. apply get_found_iff in F. unfold load_sdepth, s_bathy, s_zeta. rewrite Ht, Ha, Hz, F. destruct cls; [contradiction| |]; reflexivity.
Qed.
Print Assumptions c88_bathymetry_given_refuted.
(** A zeta passed in that has no time axis, and no time passed in: the file
    is asked for a time axis of no variable. *)
Theorem c88_zeta_given_refuted :
  forall dateutil cftime g ds nc a cls c, cls <> CBase -> sa_time a = None -> (sa_zeta a = ZVar None \/ sa_zeta a = ZOther) ->
  load_sdepth dateutil cftime g ds nc a cls c = Err TypeError.
Proof.
  intros dateutil cftime g ds nc a cls c Hc Ha Hz. unfold load_sdepth, s_time. rewrite Ha. destruct Hz as [-> | ->]; destruct cls; [contradiction| | |contradiction| |]; reflexivity.
Qed.
Print Assumptions c88_zeta_given_refuted.

(** Structured grids. *)
Lemma infer_last2 node h1 h2 hint lead r c : s_infer node true h1 h2 hint (lead ++ [r; c]) = s_infer node true h1 h2 hint [r; c].
Proof. unfold s_infer, SGridModel.infer_location, SGridModel.last_two. rewrite rev_app_distr. reflexivity. Qed.
Lemma infer_node n m h1 h2 hint : s_infer (n, m) true h1 h2 hint [n; m] = Ok (Some "node").
Proof.
  unfold s_infer, SGridModel.infer_location, SGridModel.last_two. cbn [rev app fst snd]. rewrite !Z.sub_diag. cbn. rewrite ?Bool.andb_false_r. reflexivity.
Qed.
Lemma infer_outer n m h1 h2 hint : s_infer (n, m) true h1 h2 hint [S n; S m] = Ok (Some "center").
Proof.
  unfold s_infer, SGridModel.infer_location, SGridModel.last_two. cbn [rev app fst snd].
  replace (Z.of_nat (S n) - Z.of_nat n)%Z with 1%Z by lia. replace (Z.of_nat (S m) - Z.of_nat m)%Z with 1%Z by lia. reflexivity.
Qed.
Lemma infer_inner n m h1 h2 hint : s_infer (S n, S m) true h1 h2 hint [n; m] = Ok (Some "center").
Proof.
  unfold s_infer, SGridModel.infer_location, SGridModel.last_two. cbn [rev app fst snd].
  replace (Z.of_nat n - Z.of_nat (S n))%Z with (-1)%Z by lia. replace (Z.of_nat m - Z.of_nat (S m))%Z with (-1)%Z by lia. reflexivity.
Qed.
Lemma infer_two_less n m h1 h2 hint : s_infer (S (S n), S (S m)) true h1 h2 hint [n; m] = Ok None.
Proof.
  unfold s_infer, SGridModel.infer_location, SGridModel.last_two. cbn [rev app fst snd].
  replace (Z.of_nat n - Z.of_nat (S (S n)))%Z with (-2)%Z by lia. replace (Z.of_nat m - Z.of_nat (S (S m)))%Z with (-2)%Z by lia. reflexivity.
Qed.
(** With outer cell centers (one more than nodes both ways, as in ROMS files)
    everything comes to the nodes. *)
Theorem c88_outer_centers :
  forall dateutil cftime g ds nc a cls c n m r z t steps, cls <> CBase -> StructuredGrid g n m ->
  sa_time a = Some t -> sa_bathy a = false -> sa_zeta a = ZNone ->
  Found nc "bathymetry" r -> lv_shape (fr_var r) = [S n; S m] ->
  Found nc "zeta" z -> lv_shape (fr_var z) = [steps; S n; S m] -> (length (t_data t) <= 1 \/ length (t_data t) = steps) ->
  exists d, load_sdepth dateutil cftime g ds nc a cls c = Ok d /\
    sd_bathy d = Averaged (fr_name r) /\ sd_bathy_loc d = Some "node" /\ sd_zeta d = Averaged (fr_name z) /\ sd_zeta_loc d = Some "node" /\ sd_time d = TimeGiven t.
Proof.
  intros dateutil cftime g ds nc a cls c n m r z t steps Hc (h1 & h2 & _ & G) Ht Ha Hz Fb Sb Fz Sz Hl.
  apply get_found_iff in Fb, Fz.
  assert (B : s_bathy g nc a = Ok (Averaged (fr_name r), Some "node", Some r)).
  { unfold s_bathy, on_nodes, averaged2. rewrite Ha, Fb, Sb, G, infer_outer. cbn [bind contains prefix]. cbn [bind]. cbn -[ga_infer construct_plain].
    rewrite !Nat.sub_0_r. unfold construct_plain. rewrite G, infer_node. reflexivity. }
  assert (Z : s_zeta g nc a (TimeGiven t) (Some r) = Ok (Averaged (fr_name z), Some "node")).
  { unfold s_zeta, on_nodes, averaged3. rewrite Hz, Fz, Sb, Sz, G, infer_outer. cbn [bind]. cbn -[ga_infer construct].
    rewrite !Nat.sub_0_r. unfold construct. cbn [check_location bind]. rewrite G. change [steps; n; m] with ([steps] ++ [n; m]). rewrite infer_last2, infer_node.
    cbn [bind check_location app times]. cbn [isin valid_locations]. cbn -[Nat.eqb Nat.ltb].
    destruct (Nat.eqb_spec (length (t_data t)) steps); cbn [negb andb bind]; [reflexivity|]. destruct (Nat.ltb_spec 1 (length (t_data t))); [lia|reflexivity]. }
  unfold load_sdepth, s_time. rewrite Ht. cbn [bind]. rewrite B. cbn [bind]. rewrite Z. cbn [bind fst snd].
  destruct cls; [contradiction| |]; (eexists; split; [reflexivity|]; repeat split).
Qed.
Print Assumptions c88_outer_centers.
(** With inner centers (one less than nodes both ways) the average has one less
    still, and fits nothing. *)
Theorem c88_inner_centers_refuted :
  forall dateutil cftime g ds nc a cls c n m r t, cls <> CBase -> StructuredGrid g (S (S n)) (S (S m)) ->
  sa_time a = Some t -> sa_bathy a = false -> Found nc "bathymetry" r -> lv_shape (fr_var r) = [S n; S m] ->
  PutsAt g (fr_var r) (Some "center") /\ load_sdepth dateutil cftime g ds nc a cls c = Err ValueError.
Proof.
  intros dateutil cftime g ds nc a cls c n m r t Hc (h1 & h2 & _ & G) Ht Ha Fb Sb. apply get_found_iff in Fb.
  assert (P : forall o, ga_infer g o (lv_shape (fr_var r)) = Ok (Some "center")) by (intros o; now rewrite Sb, G, infer_inner).
  split; [apply P|].
  assert (B : s_bathy g nc a = Err ValueError).
  { unfold s_bathy, on_nodes. rewrite Ha, Fb, P. cbn [bind]. cbn -[ga_infer construct_plain averaged2]. rewrite Sb. cbn -[ga_infer construct_plain].
    rewrite !Nat.sub_0_r. unfold construct_plain. rewrite G, infer_two_less. reflexivity. }
  unfold load_sdepth, s_time. rewrite Ht. cbn [bind]. rewrite B. destruct cls; [contradiction| |]; reflexivity.
Qed.
Print Assumptions c88_inner_centers_refuted.
(** Where zeta is read is decided by where the bathymetry is. *)
Theorem c88_zeta_place_refuted :
  forall dateutil cftime g ds nc a cls c n m r z t, cls <> CBase -> StructuredGrid g (S n) (S m) ->
  sa_time a = Some t -> length (t_data t) = 1 -> sa_bathy a = false -> sa_zeta a = ZNone -> Found nc "bathymetry" r -> Found nc "zeta" z ->
  (** zeta on cell centers is left there *)
  (lv_shape (fr_var r) = [S n; S m] -> lv_shape (fr_var z) = [1; S (S n); S (S m)] ->
     exists d, load_sdepth dateutil cftime g ds nc a cls c = Ok d /\ sd_zeta d = FromFile (fr_name z) /\ sd_bathy_loc d = Some "node" /\ sd_zeta_loc d = Some "center") /\
  (** zeta on nodes is averaged to cell centers *)
  (lv_shape (fr_var r) = [S (S n); S (S m)] -> lv_shape (fr_var z) = [1; S n; S m] ->
     exists d, load_sdepth dateutil cftime g ds nc a cls c = Ok d /\ sd_zeta d = Averaged (fr_name z) /\ sd_bathy_loc d = Some "node" /\ sd_zeta_loc d = Some "center").
Proof.
  intros dateutil cftime g ds nc a cls c n m r z t Hc (h1 & h2 & _ & G) Ht Hl Ha Hz Fb Fz. apply get_found_iff in Fb, Fz.
  assert (T : forall sh l, construct g None (1 :: sh) (Some l) (TimeGiven t) = (do _ <- check_location (Some l); Ok l)).
  { intros sh l. unfold construct. destruct (check_location (Some l)); [|reflexivity]. cbn [bind times]. rewrite Hl. reflexivity. }
  split; intros Sb Sz.
  - assert (B : s_bathy g nc a = Ok (FromFile (fr_name r), Some "node", Some r)).
    { unfold s_bathy, on_nodes, construct_plain. rewrite Ha, Fb, Sb, G, infer_node. reflexivity. }
    assert (Z : s_zeta g nc a (TimeGiven t) (Some r) = Ok (FromFile (fr_name z), Some "center")).
    { unfold s_zeta, on_nodes, construct. rewrite Hz, Fz, Sb, Sz, G, infer_node. cbn [bind]. cbn -[ga_infer]. rewrite G.
      change [1; S (S n); S (S m)] with ([1] ++ [S (S n); S (S m)]). rewrite infer_last2, infer_outer. cbn. rewrite Hl. reflexivity. }
    unfold load_sdepth, s_time. rewrite Ht. cbn [bind]. rewrite B. cbn [bind]. rewrite Z. cbn [bind fst snd].
    destruct cls; [contradiction| |]; (eexists; split; [reflexivity|]; repeat split).
  - assert (B : s_bathy g nc a = Ok (Averaged (fr_name r), Some "node", Some r)).
    { unfold s_bathy, on_nodes, averaged2. rewrite Ha, Fb, Sb, G, infer_outer. cbn -[ga_infer construct_plain].
      unfold construct_plain. rewrite G, infer_node. reflexivity. }
    assert (Z : s_zeta g nc a (TimeGiven t) (Some r) = Ok (Averaged (fr_name z), Some "center")).
    { unfold s_zeta, on_nodes, averaged3, construct. rewrite Hz, Fz, Sb, Sz, G, infer_outer. cbn [bind]. cbn -[ga_infer]. rewrite G, !Nat.sub_0_r.
      change [1; n; m] with ([1] ++ [n; m]). rewrite infer_last2, infer_inner. cbn. rewrite Hl. reflexivity. }
    unfold load_sdepth, s_time. rewrite Ht. cbn [bind]. rewrite B. cbn [bind]. rewrite Z. cbn [bind fst snd].
    destruct cls; [contradiction| |]; (eexists; split; [reflexivity|]; repeat split).
Qed.
Print Assumptions c88_zeta_place_refuted.
(** A mesh with all on nodes. *)
Theorem c88_mesh_nodes :
  forall dateutil cftime g ds nc a cls c n nf nb r z t steps, cls <> CBase -> (forall hint shape, ga_infer g hint shape = u_infer n nf nb hint shape) ->
  sa_time a = Some t -> sa_bathy a = false -> sa_zeta a = ZNone ->
  Found nc "bathymetry" r -> lv_shape (fr_var r) = [n] -> Found nc "zeta" z -> lv_shape (fr_var z) = [steps; n] -> (length (t_data t) <= 1 \/ length (t_data t) = steps) ->
  exists d, load_sdepth dateutil cftime g ds nc a cls c = Ok d /\
    sd_bathy d = FromFile (fr_name r) /\ sd_bathy_loc d = Some "node" /\ sd_zeta d = FromFile (fr_name z) /\ sd_zeta_loc d = Some "node" /\ sd_time d = TimeGiven t.
Proof.
  intros dateutil cftime g ds nc a cls c n nf nb r z t steps Hc G Ht Ha Hz Fb Sb Fz Sz Hl. apply get_found_iff in Fb, Fz.
  assert (U : forall hint lead, u_infer n nf nb hint (lead ++ [n]) = Ok (Some "node")).
  { intros hint lead. unfold u_infer, UGridModel.u_infer_location. rewrite ?last_last, ?rev_app_distr. cbn -[Nat.eqb]. rewrite ?Nat.eqb_refl.
    destruct (lead ++ [n]) eqn:E; [destruct lead; discriminate|]. reflexivity. }
  assert (B : s_bathy g nc a = Ok (FromFile (fr_name r), Some "node", Some r)).
  { unfold s_bathy, on_nodes, construct_plain. rewrite Ha, Fb, Sb, G. rewrite (U _ []). reflexivity. }
  assert (Z : s_zeta g nc a (TimeGiven t) (Some r) = Ok (FromFile (fr_name z), Some "node")).
  { unfold s_zeta, on_nodes, construct. rewrite Hz, Fz, Sb, Sz, G. rewrite (U _ []). cbn [bind]. cbn -[ga_infer Nat.eqb Nat.ltb]. rewrite G, (U _ [steps]). cbn -[Nat.eqb Nat.ltb].
    destruct (Nat.eqb_spec (length (t_data t)) steps); cbn [negb andb bind]; [reflexivity|]. destruct (Nat.ltb_spec 1 (length (t_data t))); [lia|reflexivity]. }
  unfold load_sdepth, s_time. rewrite Ht. cbn [bind]. rewrite B. cbn [bind]. rewrite Z. cbn [bind fst snd].
  destruct cls; [contradiction| |]; (eexists; split; [reflexivity|]; repeat split).
Qed.
Print Assumptions c88_mesh_nodes.

(** A ROMS file. *)
Definition demo_h : lvar := mkLvar ["eta_rho"; "xi_rho"] [4; 5] [] [].
Definition demo_zeta : lvar := mkLvar ["ocean_time"; "eta_rho"; "xi_rho"] [2; 4; 5] [] [].
Definition demo_depth_file : lfile := mkLfile ["ocean_time"; "eta_rho"; "xi_rho"]
  [("ocean_time", mkLvar ["ocean_time"] [2] [("units", "hours since 2024-01-01T00:00:00")] [1; 2]%Z); ("h", demo_h); ("zeta", demo_zeta)].
Definition demo_nc : dict (option fref) :=
  [("bathymetry", Some (mkFref demo_depth_file "h" demo_h)); ("zeta", Some (mkFref demo_depth_file "zeta" demo_zeta)); ("hc", None);
   ("s_rho", Some (mkFref demo_depth_file "s_rho" (mkLvar ["s_rho"] [3] [] [])))].
Definition demo_sargs : sargs := mkSargs None None TzNone None None false ZNone None None None None.
Example c88_example :
  exists d, load_sdepth demo_dateutil demo_cftime demo_s demo_depth_file demo_nc demo_sargs CROMS 3 = Ok d /\
    sd_name d = "ROMS_Depth_3" /\ times (sd_time d) = 2 /\ sd_bathy d = Averaged "h" /\ sd_zeta d = Averaged "zeta" /\ sd_zeta_loc d = Some "node" /\
    sd_terms d = [("s_rho", Values "s_rho")] /\ sd_vtransform d = 2%Z /\
    load_sdepth demo_dateutil demo_cftime demo_s demo_depth_file demo_nc (set_bathy demo_sargs true) CROMS 3 = Err UnboundLocalError.
Proof. eexists. split; [vm_compute; reflexivity|]. repeat split. Qed.
Example c88_inner_example :
  let h := mkLvar ["y"; "x"] [2; 3] [] [] in
  StructuredGrid demo_s 3 4 /\ PutsAt demo_s h (Some "center") /\
  load_sdepth demo_dateutil demo_cftime demo_s demo_depth_file [("bathymetry", Some (mkFref demo_depth_file "h" h))] demo_sargs CROMS 0 = Err ValueError.
Proof. split; [now exists true, true|]. split; reflexivity. Qed.
