(** What the parsers should do, without the matcher. *)
From Coq Require Import String Ascii.
From Verif Require Import Common.
Open Scope string_scope.
Open Scope list_scope.
Open Scope nat_scope.

Fixpoint Every (P : ascii -> Prop) (s : string) : Prop :=
  match s with "" => True | String c r => P c /\ Every P r end.
Definition LowerC (c : ascii) : Prop := 97 <= nat_of_ascii c <= 122.
Definition UpperC (c : ascii) : Prop := 65 <= nat_of_ascii c <= 90.
Definition DigitC (c : ascii) : Prop := 48 <= nat_of_ascii c <= 57.
Definition Letter (c : ascii) : Prop := LowerC c \/ UpperC c.
Definition WordC (c : ascii) : Prop := Letter c \/ DigitC c \/ c = "_"%char.
(** A dimension name, the name of a padding type, a coordinate name of
    letters and underscores. *)
Definition Name (s : string) : Prop := s <> "" /\ Every WordC s.
Definition Letters (s : string) : Prop := s <> "" /\ Every Letter s.
Definition PlainName (s : string) : Prop := s <> "" /\ Every (fun c => Letter c \/ c = "_"%char) s.

(** One entry of a padding attribute as the SGRID convention writes it. *)
Definition Entry (f n p : string) : string := (f ++ ": " ++ n ++ " (padding: " ++ p ++ ")")%string.
Definition LegalEntry (t : string * string * string) : Prop :=
  let '(f, n, p) := t in Name f /\ Name n /\ Letters p.
Definition entry_text (t : string * string * string) : string := let '(f, n, p) := t in Entry f n p.

(** [Laid l s]: [s] is made of the entries [l] in order with arbitrary text
    around them. *)
Inductive Laid : list (string * string * string) -> string -> Prop :=
| laid_end : forall g, Laid [] g
| laid_entry : forall g t l s, LegalEntry t -> Laid l s -> Laid (t :: l) (g ++ entry_text t ++ s)%string.

(** Text that may stand before an entry: it has no colon and does not end in
    a name. *)
Definition NoColon (s : string) : Prop := Every (fun c => c <> ":"%char) s.
Definition Gap (g : string) : Prop :=
  NoColon g /\ (g = "" \/ exists h c, g = (h ++ String c "")%string /\ ~ WordC c).
Inductive Clean : list (string * string * string) -> string -> Prop :=
| clean_end : forall g, NoColon g -> Clean [] g
| clean_entry : forall g t l s, Gap g -> LegalEntry t -> Clean l s -> Clean (t :: l) (g ++ entry_text t ++ s)%string.

(** Axes: a letter, a colon, a space and a coordinate name. *)
Definition axis_text (a : ascii * string) : string := String (fst a) (": " ++ snd a)%string.
Definition LegalAxis (a : ascii * string) : Prop := Letter (fst a) /\ PlainName (snd a).
(** Text between axes: no colon and, after a coordinate, not starting with a
    character of a name. *)
Definition Sep (g : string) : Prop :=
  NoColon g /\ (g = "" \/ exists c h, g = String c h /\ ~ (Letter c \/ c = "_"%char)).
Inductive Axes : list (ascii * string) -> string -> Prop :=
| axes_end : forall g, Sep g -> Axes [] g
| axes_cons : forall g a l s, Sep g -> g <> "" -> LegalAxis a -> Axes l s -> Axes (a :: l) (g ++ axis_text a ++ s)%string.
Definition Axes0 (l : list (ascii * string)) (s : string) : Prop :=
  match l with
  | [] => NoColon s
  | a :: r => LegalAxis a /\ exists g s', NoColon g /\ s = (g ++ axis_text a ++ s')%string /\ Axes r s'
  end.
(** The coordinate given for an axis letter of either case: the last one. *)
Definition SameLetter (c d : ascii) : Prop :=
  c = d \/ (nat_of_ascii c = nat_of_ascii d + 32 /\ UpperC d) \/ (nat_of_ascii d = nat_of_ascii c + 32 /\ UpperC c).
Inductive Given (d : ascii) : list (ascii * string) -> option string -> Prop :=
| given_nil : Given d [] None
| given_last : forall l c n, SameLetter c d -> Given d (l ++ [(c, n)]) (Some n)
| given_other : forall l c n v, ~ SameLetter c d -> Given d l v -> Given d (l ++ [(c, n)]) v.

(** Standard names with a direction: lower case letters and underscores
    around [_x_], [_y_] or [_z_]. *)
Definition LowerName (s : string) : Prop := s <> "" /\ Every (fun c => LowerC c \/ c = "_"%char) s.
Definition Direction (d : ascii) : Prop := d = "x"%char \/ d = "y"%char \/ d = "z"%char.
Definition dir_text (d : ascii) : string := String "_" (String d "_").
Definition Directed (s : string) : Prop :=
  exists a d b rest, LowerName a /\ Direction d /\ LowerName b /\ s = (a ++ dir_text d ++ b ++ rest)%string.
(** The first direction in the name. *)
Definition FirstDirection (s : string) (d : ascii) : Prop :=
  Direction d /\ exists a b, s = (a ++ dir_text d ++ b)%string /\
    forall a' d' b', Direction d' -> s = (a' ++ dir_text d' ++ b')%string -> String.length a <= String.length a'.
Definition capital (d : ascii) : string :=
  if Ascii.eqb d "x" then "X" else if Ascii.eqb d "y" then "Y" else "Z".
