(** Lemmas about the regridding model. *)
From Coq Require Import String.
From Verif Require Import Common CommonProofs RegridModel RegridSpec.
Open Scope string_scope.
Open Scope list_scope.
Open Scope nat_scope.

Lemma flat_length {A B} (F : A -> list B) m l : (forall a, In a l -> length (F a) = m) -> length (flat_map F l) = length l * m.
Proof.
  induction l as [|a l IH]; intros H; auto. cbn [flat_map length]. rewrite app_length, IH, (H a) by (intros; auto with datatypes). lia.
Qed.
Lemma flat_nth {A B} (F : A -> list B) m d da l i q : (forall a, In a l -> length (F a) = m) -> i < length l -> q < m ->
  nth (i * m + q) (flat_map F l) d = nth q (F (nth i l da)) d.
Proof.
  revert i. induction l as [|a l IH]; intros i H Hi Hq; cbn [length] in Hi; [lia|]. cbn [flat_map].
  pose proof (H a (or_introl eq_refl)) as La. destruct i as [|i].
  - rewrite app_nth1 by lia. reflexivity.
  - rewrite app_nth2 by (rewrite La; cbn; nia). cbn [nth]. rewrite <- IH with (i := i); auto with datatypes; [|lia].
    f_equal. rewrite La. cbn. lia.
Qed.
Lemma with_z_map pts (h : pt2 -> Q) : with_z pts (map h pts) = map (fun p => (fst p, snd p, h p)) pts.
Proof. unfold with_z. induction pts as [|p pts IH]; cbn; auto. now rewrite <- IH. Qed.

Lemma overlap_answers locate pts : Answers locate -> pts <> [] -> overlap (SS locate) pts = Ok tt.
Proof.
  intros A N. cbn [overlap]. pose proof (A pts) as L. destruct pts as [|p pts]; [congruence|]. destruct (locate (p :: pts)) as [|z l] eqn:E; [cbn in L; lia|].
  clear. assert (X : forall l, l <> [] -> all_minus_one (masked_less0 l) = false).
  { clear. intros l H. unfold all_minus_one. destruct (masked_less0 l) as [|a m] eqn:E; [destruct l; [congruence|discriminate]|].
    rewrite <- E. clear E. assert (P : Forall (fun z => (0 <= z)%Z) (unmasked (masked_less0 l))).
    { clear. induction l as [|z l IH]; [constructor|]. cbn. destruct (Z.ltb_spec z 0); cbn; auto. }
    destruct (unmasked (masked_less0 l)) as [|z u]; auto. inversion P; subst. cbn. destruct (Z.eqb_spec z (-1)); auto. lia. }
  now rewrite X by discriminate.
Qed.

Section Values.
  Context (v : ovar) (sh : nat * nat) (pts2 : list pt2) (L : length pts2 = fst sh * snd sh).
  Lemma put_reads f t pts3 : Reads (o_at v) (Some t) f -> length pts3 = length pts2 -> put v sh sh pts3 t = Ok (map (fun p => fst (f p)) pts3).
  Proof.
    intros R E. unfold put. rewrite R. cbn [bind]. unfold reshape. rewrite map_length, E, L, Nat.eqb_refl. cbn [bind].
    unfold assign. rewrite !Nat.eqb_refl. cbn. now rewrite map_map.
  Qed.
  (** The points with the depths of a level. *)
  Definition at_z (h : pt2 -> Q) : list pt3 := map (fun p => (fst p, snd p, h p)) pts2.
  Lemma at_z_length h : length (at_z h) = length pts2. Proof. apply map_length. Qed.
  Lemma at_z_xy h : map xy (at_z h) = pts2.
  Proof. unfold at_z. rewrite map_map. cbn. rewrite <- (map_id pts2) at 2. apply map_ext. now intros []. Qed.
  Lemma set_z_reads h g : set_z (at_z h) (map (fun p => g (fst p)) (at_z h)) = at_z (fun p => fst (g p)).
  Proof.
    unfold set_z. rewrite at_z_xy, !map_map. unfold at_z. rewrite !map_map. cbn. rewrite <- (with_z_map pts2 (fun p => fst (g p))).
    f_equal. apply map_ext. now intros [].
  Qed.
  Context (g : list cell -> pt2 -> cell) (level_at : list cell -> list pt3 -> result (list cell)) (G : ReadsLevel level_at g).
  Lemma levels_reads f t col n : Reads (o_at v) (Some t) f -> forall i h, exists h',
    levels v sh sh col level_at t (at_z h) i n =
      Ok (at_z h', flat_map (fun l => map (fun p => fst (f (p, fst (g (col l) p)))) pts2) (seq i n)).
  Proof.
    intros R. induction n as [|n IH]; intros i h; cbn [levels]; [now exists h|].
    rewrite G. cbn [bind]. rewrite set_z_reads. rewrite (put_reads f) by (auto using at_z_length). cbn [bind].
    destruct (IH (S i) (fun p => fst (g (col i) p))) as (h' & E). rewrite E. cbn [bind fst snd]. exists h'. cbn [seq flat_map].
    do 3 f_equal. unfold at_z. rewrite map_map. apply map_ext. now intros [].
  Qed.
End Values.

Lemma times_flat v sh ls (F : Z -> list Q) (P : list pt3 -> Prop) ts :
  (forall t pts, In t ts -> P pts -> exists pts', at_time v sh ls pts t = Ok (pts', F t) /\ P pts') ->
  forall pts, P pts -> times v sh ls pts ts = Ok (flat_map F ts).
Proof.
  induction ts as [|t ts IH]; intros H pts Hp; cbn [times flat_map]; auto.
  destruct (H t pts (or_introl eq_refl) Hp) as (p' & E & Hp'). rewrite E. cbn [bind fst snd].
  rewrite IH by (auto with datatypes). reflexivity.
Qed.
