(** Proofs about reading time axes from files. *)
From Coq Require Import String Ascii.
From Verif Require Import Common CommonProofs TimeModel TimeSpec TimeProofs IsoModel GridTypeModel GridTypeSpec GridTypeProofs
  TFileModel TFileSpec.
Open Scope string_scope.
Open Scope list_scope.
Open Scope Z_scope.

Lemma prefix_app p s : String.prefix p (p ++ s) = true.
Proof. induction p as [|c p IH]; cbn; [now destruct s|]. now destruct (ascii_dec c c). Qed.
Lemma prefix_split p s : String.prefix p s = true -> exists r, s = (p ++ r)%string.
Proof.
  revert s. induction p as [|c p IH]; intros s H; [exists s; reflexivity|].
  destruct s as [|d s]; [discriminate|]. cbn in H. destruct (ascii_dec c d) as [->|]; [|discriminate].
  destruct (IH s H) as [r ->]. exists r. reflexivity.
Qed.
Lemma drop_app p s : drop (String.length p) (p ++ s) = s.
Proof. induction p; cbn; auto. Qed.
Lemma str_app_inv : forall a b p r : string, (a ++ b = p ++ r)%string -> (String.length p <= String.length a)%nat ->
  exists q, a = (p ++ q)%string.
Proof.
  intros a b p. revert a. induction p as [|c p IH]; intros a r H L.
  - exists a. reflexivity.
  - destruct a as [|d a]; [cbn in L; lia|]. cbn in H. injection H as -> H.
    cbn in L. destruct (IH a r H) as [q ->]; [lia|]. exists q. reflexivity.
Qed.
Lemma str_length_app a b : String.length (a ++ b) = (String.length a + String.length b)%nat.
Proof. induction a; cbn; auto. Qed.
Lemma app_assoc_s a b c : ((a ++ b) ++ c = a ++ b ++ c)%string.
Proof. induction a; cbn; auto. now rewrite IHa. Qed.

(** [sep] first occurs right behind [a]. *)
Lemma cut_first a b : ~ Mentions "since" (a ++ "sinc") -> cut "since" (a ++ "since" ++ b) = Some (a, b).
Proof.
  induction a as [|c a IH]; intros H.
  - assert (P := prefix_app "since" b). assert (Dr := drop_app "since" b). cbn [append] in *.
    cbn [cut]. rewrite P, Dr. reflexivity.
  - change (String c a ++ "since" ++ b)%string with (String c (a ++ "since" ++ b)). cbn [cut]. destruct (String.prefix "since" (String c (a ++ "since" ++ b))) eqn:E.
    + exfalso. apply H. apply prefix_split in E. destruct E as [r E].
      assert (E' : ((String c (a ++ "sinc")) ++ ("e" ++ b) = "since" ++ r)%string).
      { rewrite <- E. cbn. f_equal. rewrite app_assoc_s. reflexivity. }
      apply str_app_inv in E'; [|cbn; rewrite str_length_app; cbn; lia].
      destruct E' as [q E']. exists "", q. exact E'.
    + rewrite IH; [reflexivity|]. intros (x & y & E'). apply H. exists (String c x), y. cbn. now rewrite E'.
Qed.
Lemma cut_none s : cut "since" s = None <-> ~ Mentions "since" s.
Proof.
  induction s as [|c s IH].
  - split; auto. intros _ (a & b & E). destruct a; discriminate.
  - cbn [cut]. destruct (String.prefix "since" (String c s)) eqn:E.
    + split; [discriminate|]. intros H. exfalso. apply H. apply prefix_split in E. destruct E as [r ->].
      exists "", r. reflexivity.
    + destruct (cut "since" s) as [[x y]|] eqn:Ec.
      * split; [discriminate|]. intros H. exfalso.
        assert (K : ~ Mentions "since" s); [|apply IH in K; discriminate].
        intros (a & b & E'). apply H. exists (String c a), b. cbn. now rewrite E'.
      * split; auto. intros _ (a & b & E'). apply (proj1 IH eq_refl). destruct a as [|d a].
        -- exfalso. change ("" ++ "since" ++ b)%string with ("since" ++ b)%string in E'.
           rewrite E' in E. rewrite prefix_app in E. discriminate.
        -- cbn in E'. injection E' as -> ->. exists a, b. reflexivity.
Qed.

Lemma moved_map k l l' : MovedBy k l l' -> Forall2 (fun x y => y = x + k) l l'.
Proof.
  intros [L H]. revert l' L H. induction l as [|x l IH]; intros [|y l'] L H; try discriminate; constructor.
  - specialize (H O x eq_refl). injection H as ->. reflexivity.
  - apply IH; [cbn in L; lia|]. intros i z Hz. apply (H (S i) z Hz).
Qed.
Lemma moved_by_off k a m l l' : Forall2 (fun x y => y = x + k) l l' -> k = m - a ->
  Forall2 (fun d i => i = d - m) l' (map (fun i => i - a) l).
Proof. intros H K. induction H as [|x y xs ys E _ IH]; cbn; constructor; auto. lia. Qed.
Lemma moved_none k l l' : Forall2 (fun x y => y = x + k) l l' -> k = 0 -> l' = l.
Proof. intros H K. induction H as [|x y xs ys E _ IH]; auto. rewrite IH. f_equal. lia. Qed.
