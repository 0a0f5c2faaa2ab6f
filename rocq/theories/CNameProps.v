(** C96. *)
From Coq Require Import String.
From Verif Require Import Common CommonProofs IsoModel CNameModel CNameSpec CNameProofs.
Open Scope string_scope.
Open Scope list_scope.
Open Scope nat_scope.

(** Every object gets a name when each class, or one it inherits from, has a
    counter; names given are kept. *)
Theorem c96_named :
  forall cname bases how st ops, (forall c, In c (map fst ops) -> exists d, In d (c :: bases c) /\ st d <> None) ->
  exists st' names, create_all cname bases how st ops = Ok (st', names) /\ length names = length ops /\ GivenKept ops names.
Proof.
  intros cname bases how st ops H. destruct (create_runs cname bases how ops st H) as (st' & names & E & L). exists st', names. split; [exact E|]. split; [exact L|].
  intros i c s Hi. eapply kept; eauto.
Qed.
Print Assumptions c96_named.
(** Objects made without a name have different names, whatever else is made in
    between, by whichever subclasses, when their classes count and are told
    apart by their names. *)
Theorem c96_differ_partial :
  forall cname bases how st ops st' names, create_all cname bases how st ops = Ok (st', names) ->
  (forall c, In (c, None) ops -> how c <> CountNone) -> (forall c d, In (c, None) ops -> In (d, None) ops -> cname c = cname d -> c = d) ->
  DefaultsDiffer ops names.
Proof.
  intros cname bases how st ops st' names E Hc Hn i j c d a b Hij Hi Hj Ha Hb. destruct (Nat.lt_total i j) as [H|[H|H]]; [|lia|].
  - eapply differ_lt with (i := i) (j := j); eauto.
  - intros X. symmetry in X. revert X. eapply differ_lt with (i := j) (j := i); eauto.
Qed.
Print Assumptions c96_differ_partial.
(** The number is that of the class's counter plus the objects counted before;
    a class without a counter of its own starts at that of its base. *)
Theorem c96_numbers :
  forall cname bases how st ops st' names i c s, create_all cname bases how st ops = Ok (st', names) ->
  nth_error ops i = Some (c, None) -> nth_error names i = Some s ->
  (forall k, st c = Some k -> s = (cname c ++ "_" ++ dec (N.of_nat (k + length (filter (fun op => (fst op =? c)%nat && match how c, snd op with CountAll, _ => true | CountUnnamed, None => true | _, _ => false end) (firstn i ops)))))%string) /\
  (i = 0 -> forall b k, st c = None -> hd_error (bases c) = Some b -> st b = Some k -> s = (cname c ++ "_" ++ dec (N.of_nat k))%string).
Proof.
  intros cname bases how st ops st' names i c s E Hi Hs. split.
  - intros k Hk. exact (numbering cname bases how ops st st' names k i c s E Hk Hi Hs).
  - intros -> b k Hc Hb Hk. destruct ops as [|[d g] ops]; [discriminate|]. cbn in Hi. injection Hi as -> ->. cbn [create_all create] in E. unfold counter in E. cbn [lookup] in E. rewrite Hc in E.
    destruct (bases c) as [|b' l]; [discriminate|]. cbn in Hb. injection Hb as ->. cbn [lookup] in E. rewrite Hk in E. cbn [bind fst snd] in E.
    destruct (create_all _ _ _ _ ops) as [[st2 ns]|]; [|discriminate]. cbn [bind fst snd] in E. injection E as _ <-. cbn in Hs. injection Hs as <-. reflexivity.
Qed.
Print Assumptions c96_numbers.
(** Level depths are never counted: all have the same name. *)
Theorem c96_levels_refuted :
  forall cname bases how st c k, how c = CountNone -> counter bases st c = Some k -> forall n, create_all cname bases how st (repeat (c, None) n) = Ok (st, repeat (class_name cname c k) n).
Proof.
  intros cname bases how st c k H Hk. induction n as [|n IH]; [reflexivity|]. cbn [repeat create_all create]. rewrite Hk, H. cbn [bind fst]. rewrite IH. reflexivity.
Qed.
Print Assumptions c96_levels_refuted.
(** A name given can be the default name of another object, and so can the
    default name of another class of the same name. *)
Theorem c96_collision_refuted :
  exists st', create_all (fun _ => "Grid_U") (fun _ => [0]) (fun _ => CountAll) (fun c => if c =? 0 then Some 0 else None) [(1, Some "Grid_U_1"); (1, None); (2, None); (1, None); (2, None)] =
    Ok (st', ["Grid_U_1"; "Grid_U_1"; "Grid_U_0"; "Grid_U_2"; "Grid_U_1"]).
Proof. eexists. reflexivity. Qed.
Print Assumptions c96_collision_refuted.
(** The classes of gridded: 0 GridBase, 1 Grid_U, 2 Grid_S; 3 Variable; 4 DepthBase, 5 S_Depth, 6 ROMS_Depth, 7 L_Depth. *)
Example c96_example :
  let cname c := nth c ["GridBase"; "Grid_U"; "Grid_S"; "Variable"; "DepthBase"; "S_Depth"; "ROMS_Depth"; "L_Depth"] "" in
  let bases c := nth c [[]; [0]; [0]; []; []; [4]; [5; 4]; [4]] [] in
  let how c := match c with 0 | 1 | 2 => CountAll | 7 => CountNone | _ => CountUnnamed end in
  let st c := if (c =? 0) || (c =? 3) || (c =? 4) || (c =? 6) then Some 0 else None in
  let ops := [(1, None); (2, Some "mine"); (2, None); (1, None); (3, Some "u"); (3, None); (6, None); (6, None)] in
  exists st', create_all cname bases how st ops = Ok (st', ["Grid_U_0"; "mine"; "Grid_S_1"; "Grid_U_1"; "u"; "Variable_0"; "ROMS_Depth_0"; "ROMS_Depth_1"]) /\
    (forall c, In (c, None) ops -> how c <> CountNone) /\ (forall c, In c (map fst ops) -> exists d, In d (c :: bases c) /\ st d <> None).
Proof.
  eexists. split; [vm_compute; reflexivity|]. split.
  - intros c H. cbn in H. repeat (destruct H as [H|H]; [try discriminate; injection H as <-; discriminate|]). destruct H.
  - intros c H. cbn in H. repeat (destruct H as [<-|H]; [first [(eexists; split; [left; reflexivity|discriminate])|(eexists; split; [right; left; reflexivity|discriminate])]|]). destruct H.
Qed.
