(** What a report is expected to say, as lines. *)
From Coq Require Import String Ascii.
From Verif Require Import Common MaskSpec InfoModel.
Open Scope string_scope.
Open Scope list_scope.
Open Scope nat_scope.

Definition OneLine (s : string) : Prop := MaskSpec.all_chars (fun c => c <> nl) s.
(** [t] consists of these lines. *)
Inductive LinesOf : string -> list string -> Prop :=
| lines_one s : OneLine s -> LinesOf s [s]
| lines_more s t ls : OneLine s -> LinesOf t ls -> LinesOf (s ++ newline ++ t)%string (s :: ls).
Definition OneLineOf (x : option string) : Prop := forall s, x = Some s -> OneLine s.

(** The texts of a variable are single lines. *)
Record PlainVariable (v : vinfo) : Prop := {
  pv_file : OneLineOf (vi_filename v); pv_name : OneLineOf (vi_varname v); pv_standard : forall n s, In (n, s) (vi_attrs v) -> OneLine s;
  pv_units : OneLineOf (vi_units v); pv_grid : OneLine (vi_grid v) }.
(** The lines of the report on a variable, but for the empty ones at both ends. *)
Definition variable_lines (filename varname standard units : option string) (grid shape : string) : list string :=
  ["Variable:"; "  filename: " ++ show filename; "  varname: " ++ show varname; "  standard name: " ++ show standard;
   "  units: " ++ show units; "  grid: " ++ grid; "  data shape: " ++ shape]%string.

(** The names of the attributes that have a value and no leading underscore. *)
Inductive Shown : list (string * bool) -> list string -> Prop :=
| shown_none : Shown [] []
| shown_yes n l ns : (forall r, n <> String "_" r) -> Shown l ns -> Shown ((n, true) :: l) (n :: ns)
| shown_private n b l ns : Shown l ns -> Shown ((String "_" n, b) :: l) ns
| shown_unset n l ns : Shown l ns -> Shown ((n, false) :: l) ns.

(** Whether the parts of a dataset can report. *)
Definition Reports (x : iinfo) : Prop := exists v, x = IVariable v /\ vi_shape v <> None.
Definition GridReports (g : ginfo) : Prop :=
  (exists name nodes n k bounds, g = GMesh name nodes (Some (n, k)) bounds) \/ exists vars, g = GStaggered vars.
