(** Model of default names and the class counters behind them: grids.py:13-27,
    variable.py:40, 237-239, 830, 970-972, depth.py:17, 179-180, 472-474, 838, 894.
    Classes are numbers; a class has a name, the classes it inherits from in
    order, and a way of counting.  [st c] is the counter in the class's own
    dictionary, if it has one. *)
From Coq Require Import String.
From Verif Require Import Common IsoModel.
Open Scope string_scope.
Open Scope list_scope.
Open Scope nat_scope.

(** Grids count every object, variables and sigma depths those without a name,
    level depths none. *)
Inductive counting := CountAll | CountUnnamed | CountNone.

Section Names.
  Context (cname : nat -> string) (bases : nat -> list nat) (how : nat -> counting).
  Definition counters := nat -> option nat.
  (** [cls._instance_count] *)
  Fixpoint lookup (st : counters) (l : list nat) : option nat :=
    match l with [] => None | c :: r => match st c with Some n => Some n | None => lookup st r end end.
  Definition counter (st : counters) (c : nat) : option nat := lookup st (c :: bases c).
  (** [cls._instance_count = n]: into the class's own dictionary. *)
  Definition put (st : counters) (c n : nat) : counters := fun d => if d =? c then Some n else st d.
  Definition class_name (c n : nat) : string := cname c ++ "_" ++ dec (N.of_nat n).
  (** One object of class [c], with a name or without. *)
  Definition create (st : counters) (c : nat) (given : option string) : result (counters * string) :=
    match given with
    | Some s =>
        match how c with
        | CountAll => match counter st c with Some n => Ok (put st c (S n), s) | None => Err AttributeError end
        | _ => Ok (st, s)
        end
    | None =>
        match counter st c with
        | None => Err AttributeError
        | Some n => Ok (match how c with CountNone => st | _ => put st c (S n) end, class_name c n)
        end
    end.
  Fixpoint create_all (st : counters) (ops : list (nat * option string)) : result (counters * list string) :=
    match ops with
    | [] => Ok (st, [])
    | (c, g) :: r =>
        do p <- create st c g;
        do q <- create_all (fst p) r;
        Ok (fst q, snd p :: snd q)
    end.
End Names.
