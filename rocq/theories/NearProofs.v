(** Lemmas about nearest points. *)
From Coq Require Import String QArith.
From Verif Require Import Common CommonProofs GridTypeModel GridTypeProofs MaskModel SGridModel SGridProofs LoadModel NearModel NearSpec.
Open Scope list_scope.
Open Scope nat_scope.

Lemma each_ok {A B} (f : A -> result B) (P : A -> B -> Prop) l : (forall a, In a l -> exists b, f a = Ok b /\ P a b) ->
  exists bs, each f l = Ok bs /\ Forall2 P l bs.
Proof.
  induction l as [|a l IH]; intros H; cbn [each]; [exists []; auto|].
  destruct (H a (or_introl eq_refl)) as (b & -> & Pb). cbn [bind].
  destruct IH as (bs & -> & F); [intros; apply H; now right|]. cbn [bind]. exists (b :: bs). auto.
Qed.
Lemma each_inv {A B} (f : A -> result B) l : forall bs, each f l = Ok bs -> Forall2 (fun a b => f a = Ok b) l bs.
Proof.
  induction l as [|a l IH]; intros bs H; cbn [each] in H; [injection H as <-; constructor|].
  destruct (f a) as [b|] eqn:E; [cbn [bind] in H|discriminate]. destruct (each f l) as [bs'|]; [cbn [bind] in H|discriminate].
  injection H as <-. constructor; auto.
Qed.
Lemma coords_dset g name t : coords_of (mkNgrid (ng_node g) (ng_center g) (ng_edge1 g) (ng_edge2 g) t) name = coords_of g name.
Proof. reflexivity. Qed.

Lemma fold_min l : forall x, (fold_left Z.min l x <= x)%Z /\ (forall y, In y l -> fold_left Z.min l x <= y)%Z /\ (fold_left Z.min l x = x \/ In (fold_left Z.min l x) l).
Proof.
  induction l as [|y l IH]; intros x; cbn [fold_left]; [repeat split; auto; [lia|intros y []]|].
  destruct (IH (Z.min x y)) as (A & B & C). repeat split; [lia| |].
  - intros z [<-|H]; [lia|auto].
  - destruct C as [C|C]; [|right; now right]. rewrite C. destruct (Z.min_spec x y) as [[_ ->]|[_ ->]]; [now left|right; now left].
Qed.
Lemma fold_max l : forall x, (x <= fold_left Z.max l x)%Z /\ (forall y, In y l -> y <= fold_left Z.max l x)%Z /\ (fold_left Z.max l x = x \/ In (fold_left Z.max l x) l).
Proof.
  induction l as [|y l IH]; intros x; cbn [fold_left]; [repeat split; auto; [lia|intros y []]|].
  destruct (IH (Z.max x y)) as (A & B & C). repeat split; [lia| |].
  - intros z [<-|H]; [lia|auto].
  - destruct C as [C|C]; [|right; now right]. rewrite C. destruct (Z.max_spec x y) as [[_ ->]|[_ ->]]; [right; now left|now left].
Qed.
Lemma least_spec l : l <> [] -> exists m, least l = Some m /\ In m l /\ forall y, In y l -> (m <= y)%Z.
Proof.
  destruct l as [|x l]; [contradiction|]. intros _. destruct (fold_min l x) as (A & B & C). eexists. split; [reflexivity|].
  split; [destruct C as [->|C]; [now left|now right]|]. intros y [<-|H]; auto.
Qed.
Lemma greatest_spec l : l <> [] -> exists m, greatest l = Some m /\ In m l /\ forall y, In y l -> (y <= m)%Z.
Proof.
  destruct l as [|x l]; [contradiction|]. intros _. destruct (fold_max l x) as (A & B & C). eexists. split; [reflexivity|].
  split; [destruct C as [->|C]; [now left|now right]|]. intros y [<-|H]; auto.
Qed.
Lemma u32_small z : (0 <= z < 4294967296)%Z -> u32 z = z.
Proof. intros. unfold u32. now apply Z.mod_small. Qed.
Lemma extra_corners location e : Corners location e <-> extra location = Ok (fst e - 1, snd e - 1)%Z.
Proof.
  unfold extra, Corners.
  destruct (isin location edge1_names) eqn:E1.
  { apply isin_in in E1. split.
    - intros H. assert (e = (2, 1)%Z) as -> by (destruct H as [[_ H]|[[H _]|[[H _]|[H _]]]]; auto; exfalso; cbn in E1, H;
        destruct E1 as [E1|[E1|[]]]; rewrite <- E1 in H; intuition discriminate). reflexivity.
    - intros H. destruct e as [a b]. cbn in H. injection H as H1 H2. left. split; auto. f_equal; lia. }
  destruct (isin location edge2_names) eqn:E2.
  { apply isin_in in E2. split.
    - intros H. assert (e = (1, 2)%Z) as -> by (destruct H as [[H _]|[[_ H]|[[H _]|[H _]]]]; auto; exfalso; cbn in E2, H;
        destruct E2 as [E2|[E2|[]]]; rewrite <- E2 in H; intuition discriminate). reflexivity.
    - intros H. destruct e as [a b]. cbn in H. injection H as H1 H2. right. left. split; auto. f_equal; lia. }
  destruct (isin location node_names) eqn:E3.
  { apply isin_in in E3. split.
    - intros H. assert (e = (2, 2)%Z) as -> by (destruct H as [[H _]|[[H _]|[[_ H]|[H _]]]]; auto; exfalso; cbn in E3, H;
        repeat destruct E3 as [E3|E3]; try contradiction; rewrite <- E3 in H; intuition discriminate). reflexivity.
    - intros H. destruct e as [a b]. cbn in H. injection H as H1 H2. right. right. left. split; auto. f_equal; lia. }
  destruct (isin location center_names) eqn:E4.
  { apply isin_in in E4. split.
    - intros H. assert (e = (1, 1)%Z) as -> by (destruct H as [[H _]|[[H _]|[[H _]|[_ H]]]]; auto; exfalso; cbn in E4, H;
        repeat destruct E4 as [E4|E4]; try contradiction; rewrite <- E4 in H; intuition discriminate). reflexivity.
    - intros H. destruct e as [a b]. cbn in H. injection H as H1 H2. right. right. right. split; auto. f_equal; lia. }
  split; [|discriminate]. intros [[H _]|[[H _]|[[H _]|[H _]]]]; exfalso; apply isin_in in H.
  - unfold edge1_names in E1. congruence.
  - unfold edge2_names in E2. congruence.
  - unfold node_names in E3. congruence.
  - unfold center_names in E4. congruence.
Qed.
