(** What a time variable of a file means. *)
From Coq Require Import String Ascii.
From Verif Require Import Common TimeModel TimeSpec GridTypeModel TFileModel.
Open Scope string_scope.
Open Scope list_scope.


(** The instants (UTC) that the values of a variable denote by its units. *)
Definition FileInstants (cftime : string -> option (Z * Z * Z)) (v : tvar) (l : list Z) : Prop :=
  exists u step base off, tv_units v = Some u /\ cftime u = Some (step, base, off) /\
    Forall2 (fun x i => i = base + x * step - off)%Z (tv_vals v) l.
(** The instants a Time object denotes, if its offset is known. *)
Definition Denotes (t : time_obj) (l : list Z) : Prop :=
  exists off, t_tz t = Some off /\ Forall2 (fun d i => i = d - off)%Z (t_data t) l.

(** Both libraries read the same offset in the units (none counts as zero). *)
Definition SameOffset (dateutil : string -> dparse) (cftime : string -> option (Z * Z * Z)) (v : tvar) (off : Z) : Prop :=
  exists u t step base, tv_units v = Some u /\ since_part u = Ok t /\ cftime u = Some (step, base, off) /\
    ((exists n, dateutil t = DOffset off n) \/ (off = 0%Z /\ (dateutil t = DNaive \/ dateutil t = DFail))).
