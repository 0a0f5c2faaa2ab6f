(** Model of reading time axes from files: gridded/time.py:48-83
    [parse_time_offset], 177-184 [locate_time_var_from_var], 186-285
    [from_netCDF], 287-298 [constant_time].

    The two libraries that read the units text are parameters: [dateutil] is
    dateutil.parser.parse with utcoffset and tzname, [cftime] the reading of the
    units by netCDF4.num2date (step in microseconds, base as written, offset
    of the base).  num2date is documented to answer in UTC whatever the offset
    in the units.  Offsets are microseconds, as in TimeModel. *)
From Coq Require Import String Ascii.
From Verif Require Import Common TimeModel IsoModel GridTypeModel.
Open Scope string_scope.
Open Scope list_scope.

(** [unit_str.split("since")[1]]: between the first and the second "since". *)
Fixpoint drop (n : nat) (s : string) : string :=
  match n, s with
  | O, _ => s
  | S _, EmptyString => EmptyString
  | S m, String _ r => drop m r
  end.
Fixpoint cut (sep s : string) : option (string * string) :=
  match s with
  | EmptyString => None
  | String c r =>
      if String.prefix sep s then Some ("", drop (String.length sep) s)
      else match cut sep r with
           | Some (a, b) => Some (String c a, b)
           | None => None
           end
  end.
Definition since_part (s : string) : result string :=
  match cut "since" s with
  | None => Err IndexError
  | Some (_, b) => match cut "since" b with None => Ok b | Some (a, _) => Ok a end
  end.

Inductive dparse := DFail | DNaive | DOffset (off : Z) (name : option string).
Definition iso_of (off : Z) : string := offset_as_iso_string (Some (off # 3600000000)%Q).

(** A variable of a file, as far as time is concerned: its dimensions, its
    [time] attribute if any, its units and (whole-number) values. *)
Record tvar := mkTvar {
  tv_dims : list string; tv_time : option string; tv_units : option string; tv_vals : list Z }.
Record tfile := mkTfile { tf_dims : list string; tf_vars : dict tvar }.

(** time.py:177-184.  [_grp.dimensions] are those of the file.  A variable
    without dimensions: IndexError. *)
Definition locate_time (f : tfile) (v : tvar) : result (option string) :=
  match tv_time v with
  | Some t => if isin t (tf_dims f) then Ok (Some t) else
      match tv_dims v with
      | [] => Err IndexError
      | d :: _ => Ok (if contains "time" d then Some d else None)
      end
  | None =>
      match tv_dims v with
      | [] => Err IndexError
      | d :: _ => Ok (if contains "time" d then Some d else None)
      end
  end.

Inductive tz_arg := TzNone | TzText (s : string) | TzOff (off : Z).
Inductive dv_arg := DVNone | DVName (n : string) | DVVar (v : tvar).
Inductive tresult := Constant | Axis (t : time_obj) (name : string).

Section Files.
  Context (dateutil : string -> dparse) (cftime : string -> option (Z * Z * Z)).

  (** time.py:66-83 *)
  Definition parse_time_offset (units : string) : result (option Z * option string) :=
    do t <- since_part units;
    match dateutil t with
    | DFail | DNaive => Ok (None, None)
    | DOffset off (Some n) => Ok (Some off, Some n)
    | DOffset off None => Ok (Some off, Some (iso_of off))
    end.

  (** netCDF4.num2date: base - offset + value * step, naive in UTC. *)
  Definition num2date (units : string) (vals : list Z) : result (list Z) :=
    match cftime units with
    | None => Err ValueError
    | Some (step, base, off) => Ok (map (fun v => base - off + v * step)%Z vals)
    end.

  (** time.py:250-263.  A text that is not "naive" is compared with 0 in
      offset_as_iso_string: TypeError. *)
  Definition tz_of (v : tvar) (tz : tz_arg) : result (option Z * string) :=
    match tz with
    | TzText s => if String.eqb (lower s) "naive" then Ok (None, "No Timezone Specified") else Err TypeError
    | TzOff off => Ok (Some off, iso_of off)
    | TzNone =>
        match tv_units v with
        | None => Err AttributeError
        | Some u =>
            do p <- parse_time_offset u;
            match p with
            | (Some off, n) => Ok (Some off, match n with Some n => n | None => "" end)
            | (None, _) => Ok (Some 0%Z, "UTC")
            end
        end
    end.

  (** time.py:248-285 for a variable found. *)
  Definition read_axis (v : tvar) (tz : tz_arg) (new_tz : option Z) (tz_name : option string)
    (origin disp : option Z) : result tresult :=
    do p <- tz_of v tz;
    match tv_units v with
    | None => Err AttributeError
    | Some u =>
        do data <- num2date u (tv_vals v);
        do t <- time_init data (fst p) new_tz origin disp;
        Ok (Axis t (match tz_name with Some n => n | None => snd p end))
    end.

  (** time.py:232-248: by name, or by the variable whose times are wanted. *)
  Definition time_from_netCDF (f : tfile) (varname : option string) (datavar : dv_arg) (tz : tz_arg)
    (new_tz : option Z) (tz_name : option string) (origin disp : option Z) : result tresult :=
    do n <- match varname, datavar with
            | Some n, _ => Ok (Some n)
            | None, DVNone => Err TypeError
            | None, DVName n => match dget (tf_vars f) n with None => Err KeyError | Some v => locate_time f v end
            | None, DVVar v => locate_time f v
            end;
    match n with
    | None => Ok Constant
    | Some n =>
        match dget (tf_vars f) n with
        | None => Err KeyError
        | Some v => read_axis v tz new_tz tz_name origin disp
        end
    end.
End Files.

(** time.py:287-298: the class attribute [_const_time], and what users can do
    with the object they get. *)
Inductive const_op := CGet (now : Z) | CTz (off : option Z) | CDisp (d : option Z).
Definition const_step (s : option time_obj) (o : const_op) : option time_obj :=
  match o, s with
  | CGet now, None => Some (mkTime [now] None None)
  | CGet _, Some t => Some t
  | CTz off, Some t => Some (set_tz t off)
  | CDisp d, Some t => Some (fst (set_disp t d))
  | _, None => None
  end.
Definition const_run (ops : list const_op) : option time_obj := fold_left const_step ops None.
