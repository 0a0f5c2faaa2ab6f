(** Model of the inspector window, gridded/plotting/mpl_plotting.py: 251-273
    [draw_grid_lines], 415-651 [PureMatplotlibFVCOMViewer]; on top of
    PlotModel.
    The axes are the list of what has been added to them and not removed, each
    with its own number.  Styles, texts, the offsets of the badges, printing and
    the layout of the window are left out.  matplotlib prints the exceptions of a
    callback and goes on.  A click says whether the disk takes the row it may
    cause to be written. *)
From Coq Require Import QArith Ascii String.
From Verif Require Import Common MaskModel DepthModel UGridModel SGridModel NLoadModel PlotModel.
Open Scope string_scope.
Open Scope list_scope.
Open Scope nat_scope.

(** ** The log *)
(** 464-481 *)
Definition headers : list string :=
  ["nele"; "nele_lat"; "nele_lon"; "node1"; "node1_lat"; "node1_lon"; "node2"; "node2_lat"; "node2_lon"; "node3"; "node3_lat"; "node3_lon"].
Inductive field := EInt (n : Z) | ENum (x : Q).
Inductive line := Names (l : list string) | Row (l : list field).

(** [Path.stem]: the name without its last suffix; a dot at either end starts none. *)
Fixpoint last_dot (s : string) : option nat :=
  match s with
  | "" => None
  | String c r =>
      match last_dot r with
      | Some k => Some (S k)
      | None => if Ascii.eqb c "."%char then Some 0 else None
      end
  end.
Definition stem (name : string) : string :=
  match last_dot name with
  | Some i => if (0 <? i) && (i <? String.length name - 1) then substring 0 i name else name
  | None => name
  end.
(** 421-424: the name of the log, in the directory of the file. *)
Definition log_name (name : string) : string := stem name ++ "_selected_cell.csv".

(** ** The axes *)
Inductive artist :=
| Wire (nodes : list point) (triangles : list (list Z))
| Spill (p : point)
| Patch (corners : list point)
| Dots (ps : list point)
| Badge (node : Z) (p : point)
| Callout (face : nat) (nodes : list Z) (p : point)
| Mark (p : point).
Record viewer := mkViewer {
  v_log : list line;
  v_axes : list (nat * artist);
  v_next : nat;                      (* number of the next artist *)
  v_scatter : option nat; v_triangle : option nat; v_notes : list nat }.
Definition add (a : artist) (v : viewer) : viewer * nat :=
  (mkViewer (v_log v) (v_axes v ++ [(v_next v, a)]) (S (v_next v)) (v_scatter v) (v_triangle v) (v_notes v), v_next v).
(** [artist.remove()] of something that is no longer there raises. *)
Definition remove (i : nat) (v : viewer) : result viewer :=
  if existsb (fun x => fst x =? i) (v_axes v)
  then Ok (mkViewer (v_log v) (filter (fun x => negb (fst x =? i)) (v_axes v)) (v_next v) (v_scatter v) (v_triangle v) (v_notes v))
  else Err ValueError.
Definition remove_opt (i : option nat) (v : viewer) : result viewer := match i with None => Ok v | Some i => remove i v end.
Fixpoint remove_all (is : list nat) (v : viewer) : result viewer :=
  match is with [] => Ok v | i :: r => do v1 <- remove i v; remove_all r v1 end.

(** 251-273: matplotlib.tri.Triangulation takes rows of three nodes, at least one,
    all of them among the points. *)
Definition draw_grid_lines (nodes : list point) (faces nv : option (list (list Z))) : result artist :=
  do f <- triangle_faces faces nv;
  if match f with [] => false | _ => true end && forallb (fun r => length r =? 3) f &&
     forallb (fun x => (0 <=? x)%Z && (x <? Z.of_nat (length nodes))%Z) (concat f)
  then Ok (Wire (map shown nodes) f)
  else Err ValueError.
(** 418-461; the first part of the answer is what the log holds, also when the
    window does not open. *)
Definition opened (nodes : list point) (faces nv : option (list (list Z))) (spill : option point) : list line * result viewer :=
  let log := [Names headers] in
  (log,
   do _ <- max_extent nodes (5 # 100);
   do w <- draw_grid_lines nodes faces nv;
   let v := fst (add w (mkViewer log [] 0 None None [])) in
   Ok (match spill with None => v | Some p => fst (add (Spill p) v) end)).

Definition qmean (l : list Q) : Q := (fold_right Qplus 0 l / inject_Z (Z.of_nat (length l)))%Q.
Definition center (ps : list point) : point := (qmean (map fst ps), qmean (map snd ps)).
Definition set_notes (l : list nat) (v : viewer) : viewer := mkViewer (v_log v) (v_axes v) (v_next v) (v_scatter v) (v_triangle v) l.
Definition set_triangle (i : nat) (v : viewer) : viewer := mkViewer (v_log v) (v_axes v) (v_next v) (v_scatter v) (Some i) (v_notes v).
Definition set_scatter (i : nat) (v : viewer) : viewer := mkViewer (v_log v) (v_axes v) (v_next v) (Some i) (v_triangle v) (v_notes v).
Definition note (a : artist) (v : viewer) : viewer := let (v1, i) := add a v in set_notes (v_notes v1 ++ [i]) v1.
(** 560-583.  [node1, node2, node3 = ...] wants three. *)
Definition log_row (a : answer) : result (list field) :=
  match an_nodes a, an_coords a with
  | [n1; n2; n3], [p1; p2; p3] =>
      let c := center (an_coords a) in
      Ok [EInt (Z.of_nat (an_face a)); ENum (snd c); ENum (fst c);
          EInt n1; ENum (snd p1); ENum (fst p1); EInt n2; ENum (snd p2); ENum (fst p2); EInt n3; ENum (snd p3); ENum (fst p3)]
  | _, _ => Err ValueError
  end.
Definition append_row (r : list field) (v : viewer) : viewer :=
  mkViewer (v_log v ++ [Row r]) (v_axes v) (v_next v) (v_scatter v) (v_triangle v) (v_notes v).
(** 506-651: what is left of the window, and the exception if any.  A failing
    [remove] would leave the window half cleared; that it cannot fail is proved
    (InspProofs), so the state it would leave is not modelled. *)
Definition draw_query_result (disk : bool) (a : answer) (v : viewer) : viewer * option err :=
  match (do v1 <- remove_opt (v_scatter v) v; do v2 <- remove_opt (v_triangle v) v1; remove_all (v_notes v) v2) with
  | Err e => (v, Some e)
  | Ok v3 =>
      let v4 := set_notes [] v3 in
      let (v5, t) := add (Patch (an_coords a)) v4 in
      let v6 := set_triangle t v5 in
      let (v7, s) := add (Dots (an_coords a)) v6 in
      let v8 := set_scatter s v7 in
      match log_row a with
      | Err e => (v8, Some e)
      | Ok r =>
          if disk then
            let v9 := append_row r v8 in
            let v10 := fold_left (fun v x => note (Badge (fst x) (snd x)) v) (combine (an_nodes a) (an_coords a)) v9 in
            let v11 := note (Callout (an_face a) (an_nodes a) (an_click a)) v10 in
            (fst (add (Mark (center (an_coords a))) v11), None)
          else (v8, Some RuntimeError)
      end
  end.

Record event := mkEvent { ev_button : nat; ev_x : option Q; ev_y : option Q; ev_disk : bool }.
Section Session.
  Context (locate : point -> option nat) (nodes : list point) (faces nv : option (list (list Z))).
  (** 484-504 *)
  Definition on_click (e : event) (v : viewer) : viewer * option err :=
    match ev_button e =? 1, ev_x e, ev_y e with
    | true, Some x, Some y =>
        match (do f <- triangle_faces faces nv; index_query locate nodes f (x, y)) with
        | Err er => (v, Some er)
        | Ok None => (v, None)
        | Ok (Some a) => draw_query_result (ev_disk e) a v
        end
    | _, _, _ => (v, None)
    end.
  Fixpoint clicks (es : list event) (v : viewer) : viewer * list (option err) :=
    match es with
    | [] => (v, [])
    | e :: r => let (v1, o) := on_click e v in let (v2, os) := clicks r v1 in (v2, o :: os)
    end.
End Session.
