(** Model of gridded/utilities.py:194-330: bringing point arrays to one row per
    point, and results back to the caller's layout. *)
From Verif Require Import Common.

(** An n-dimensional array: its shape and its entries by index. *)
Record nd (V : Type) := mkNd { n_shape : list nat; n_at : list nat -> V }.
Arguments mkNd {V}. Arguments n_shape {V}. Arguments n_at {V}.

(** numpy.squeeze: dimensions of length 1 go; the index of the result gets a 0 at
    each of them. *)
Definition squeeze_shape (s : list nat) : list nat := filter (fun d => negb (Nat.eqb d 1)) s.
Fixpoint unsqueeze (s ix : list nat) : list nat :=
  match s with
  | [] => []
  | d :: r => if Nat.eqb d 1 then O :: unsqueeze r ix
              else match ix with [] => [] | i :: ix' => i :: unsqueeze r ix' end
  end.
Definition squeeze {V} (a : nd V) : nd V :=
  mkNd (squeeze_shape (n_shape a)) (fun ix => n_at a (unsqueeze (n_shape a) ix)).
(** .T reverses the axes. *)
Definition transpose {V} (a : nd V) : nd V := mkNd (rev (n_shape a)) (fun ix => n_at a (rev ix)).

(** [shp in ((2, 2), (2, 3), (3, 2), (3, 3))] *)
Definition ambiguous (s : list nat) : bool :=
  match s with
  | [a; b] => ((a =? 2) || (a =? 3)) && ((b =? 2) || (b =? 3))
  | _ => false
  end%nat.
(** shp[0] > 3 and shp[1] > 3, etc.: the first two lengths. *)
Definition two (s : list nat) : result (nat * nat) :=
  match s with a :: b :: _ => Ok (a, b) | _ => Err IndexError end.

(** utilities.py:194-263.  [numeric]: the converted array is not of object, bytes
    or bool type. *)
Definition reorganize {V} (numeric : bool) (points : option (nd V)) : result (option (nd V)) :=
  match points with
  | None => Ok None
  | Some p =>
      let a := squeeze p in
      let shp := n_shape a in
      if negb numeric then Err TypeError
      else match shp with
      | [k] => if ((k =? 2) || (k =? 3))%nat then Ok (Some (mkNd [1%nat; k] (fun ix => n_at a (tl ix))))
               else Err ValueError
      | _ =>
          if ambiguous shp then Ok (Some a)
          else
            do ab <- two shp;
            if ((3 <? fst ab) && (3 <? snd ab))%nat then Err ValueError
            else if (snd ab <? fst ab)%nat then Ok (Some a)
            else Ok (Some (transpose a))
      end
  end.

(** utilities.py:266-330 *)
Definition column {V} (a : nd V) : nd V :=                  (* result[:, None] *)
  mkNd (match n_shape a with n :: r => n :: 1%nat :: r | [] => [] end)
       (fun ix => n_at a (match ix with i :: _ :: r => i :: r | l => l end)).
Definition align {V W} (res : nd W) (points : option (nd V)) : result (nd W) :=
  match points with
  | None => Ok res
  | Some p =>
      let shp := squeeze_shape (n_shape p) in
      match shp with
      | [k] => if ((k =? 2) || (k =? 3))%nat then Ok res else Err ValueError
      | _ =>
          if ambiguous shp then Ok res
          else
            do ab <- two shp;
            if ((3 <? fst ab) && (3 <? snd ab))%nat then Err ValueError
            else
              let first := match n_shape res with n :: _ => Ok n | [] => Err IndexError end in
              if (fst ab <? snd ab)%nat then
                do n <- first;
                if (n =? snd ab)%nat then Ok (transpose res)
                else if ((fst ab =? n) && (length (n_shape res) =? 1))%nat then Ok (column res)
                else Ok res
              else
                do n <- first;
                if ((fst ab =? n) && (length (n_shape res) =? 1))%nat then Ok (column res)
                else Ok res
      end
  end.
