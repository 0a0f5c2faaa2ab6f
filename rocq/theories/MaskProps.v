(** The mask conversion property. *)
From Coq Require Import String Ascii DecimalString.
From Verif Require Import Common CommonProofs GridTypeModel GridTypeSpec MaskModel MaskSpec MaskProofs.
Open Scope string_scope.
Open Scope list_scope.

(** C54: one mask entry per data entry, each decided by its own value. *)
Theorem c54_entrywise k data :
  length (convert_mask k data) = length data /\
  forall i, nth_error (convert_mask k data) i =
            match nth_error data i with Some e => Some (convert_entry k e) | None => None end.
Proof.
  unfold convert_mask. split; [apply map_length|]. intro i. rewrite nth_error_map. destruct (nth_error data i); reflexivity.
Qed.
Print Assumptions c54_entrywise.

(** Flag tables.  [keys] are the numeric flag values and [words] the flag
    meanings, however the file stores them. *)
Definition ValuesAre (fv : flag_vals) (keys : list Z) : Prop :=
  match fv with
  | FVNums l => l = keys
  | FVStr s => Words s (map (fun z => NilEmpty.string_of_int (Z.to_int z)) keys)
  end.
Definition MeaningsAre (fm : flag_means) (words : list string) : Prop :=
  match fm with FMList l => l = words | FMStr s => Words s words end.

Theorem c54_flags fv fm keys words v :
  ValuesAre fv keys -> MeaningsAre fm words ->
  (forall w, LastWord v keys words w -> (convert_entry (MFlags fv fm) (mkM v false) = false <-> WaterWord w)) /\
  (NoWord v keys words -> convert_entry (MFlags fv fm) (mkM v false) = true) /\
  convert_entry (MFlags fv fm) (mkM v true) = true.
Proof.
  intros Hv Hm.
  assert (Ek : flag_keys fv = keys).
  { destruct fv; cbn in *; [assumption|]. rewrite (split_unique _ _ Hv), ints_of_print. reflexivity. }
  assert (Ew : flag_words fm = words).
  { destruct fm; cbn in *; [assumption|]. apply split_unique, Hm. }
  cbn [convert_entry]. rewrite Ek, Ew. pose proof (flags_entry keys words v) as H. cbn zeta in H.
  split; [|split].
  - intros w [i Hi Hw Hl]. destruct H as [(w' & [i' Hi' Hw' Hl'] & H)|[Hn _]].
    + assert (i = i').
      { destruct (Nat.lt_trichotomy i i') as [L|[E|L]]; auto.
        - exfalso. apply (Hl i' L); auto. eapply nth_error_Some_lt; eauto.
        - exfalso. apply (Hl' i L); auto. eapply nth_error_Some_lt; eauto. }
      subst i'. assert (w = w') by congruence. subst. exact H.
    + exfalso. apply (Hn i); auto. eapply nth_error_Some_lt; eauto.
  - intros Hn. destruct H as [(w' & [i' Hi' Hw' Hl'] & H)|[_ H]]; [|exact H].
    exfalso. apply (Hn i'); auto. eapply nth_error_Some_lt; eauto.
  - apply masked_entry.
Qed.
Print Assumptions c54_flags.

(** Every value has a last word or none, so the two cases above are all. *)
Theorem c54_flags_total v keys words : (exists w, LastWord v keys words w) \/ NoWord v keys words.
Proof. destruct (flags_entry keys words v) as [(w & H & _)|[H _]]; eauto. Qed.
Print Assumptions c54_flags_total.

(** flag_values given as a string with a token that is no number: nothing
    is recognised and the whole array is land. *)
Theorem c54_unreadable_values s fm toks e :
  Words s toks -> Exists (fun t => forall z, NilEmpty.int_of_string t <> Some z) toks ->
  convert_entry (MFlags (FVStr s) fm) e = true.
Proof.
  intros Hw Hx. cbn [convert_entry flag_keys]. rewrite (split_unique _ _ Hw), ints_of_none; [reflexivity|].
  eapply Exists_impl; [|exact Hx]. intros t Ht. unfold int_of. cbn beta in Ht.
  destruct (NilEmpty.int_of_string t) as [z|]; [|reflexivity]. exfalso. apply (Ht z). reflexivity.
Qed.
Print Assumptions c54_unreadable_values.

(** option_0 style: 1 is water, everything else (and a masked entry) land. *)
Theorem c54_option e : convert_entry MOption e = false <-> (m_masked e = false /\ m_val e = 1%Z).
Proof.
  destruct e as [v [|]]; cbn.
  - split; [discriminate|intros [? _]; discriminate].
  - destruct (Z.eqb_spec v 0) as [E|E]; destruct (Z.eqb_spec v 1) as [F|F]; split; try discriminate; auto;
      intros [_ ?]; lia.
Qed.
Print Assumptions c54_option.

Theorem c54_plain e : convert_entry MPlain e = true <-> m_val e <> 0%Z.
Proof. cbn. rewrite negb_true_iff, Z.eqb_neq. reflexivity. Qed.
Print Assumptions c54_plain.

Example c54_example :
  convert_mask (MFlags (FVStr " 0 1  2") (FMStr "Land Sea_WATER Great_Lakes"))
    [mkM 0 false; mkM 1 false; mkM 2 false; mkM 3 false; mkM 1 true] = [true; false; false; true; true]
  /\ convert_mask (MFlags (FVNums [0; 1; 0]%Z) (FMList ["land"; "water"; "lake"])) [mkM 0 false] = [false]
  /\ LastWord 0 [0; 1; 0]%Z ["land"; "water"; "lake"] "lake"
  /\ convert_mask (MFlags (FVStr "0b 1b") (FMStr "land water")) [mkM 1 false] = [true]
  /\ convert_mask MOption [mkM 0 false; mkM 1 false; mkM 2 false] = [true; false; true]
  /\ convert_mask MPlain [mkM 0 false; mkM 7 false] = [false; true].
Proof.
  repeat match goal with |- _ /\ _ => split end; try (vm_compute; reflexivity).
  apply last_word with 2%nat; try reflexivity. intros [|[|[|j]]]; cbn; lia.
Qed.
