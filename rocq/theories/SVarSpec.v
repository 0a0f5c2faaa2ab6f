(** What the file search and the variable descriptions should give, without
    the helpers of the model. *)
From Coq Require Import String Ascii.
From Verif Require Import Common GridTypeModel GridTypeSpec SAttrModel SVarModel.
Open Scope string_scope.
Open Scope list_scope.
Open Scope nat_scope.

(** [x] is the only element of the list with the property. *)
Definition OnlyWith {A} (P : A -> Prop) (l : list A) (x : A) : Prop :=
  exists pre post, l = pre ++ x :: post /\ P x /\ forall y, In y (pre ++ post) -> ~ P y.
(** [x] is the first element with the property. *)
Definition FirstOf {A} (P : A -> Prop) (l : list A) (x : A) : Prop :=
  exists pre post, l = pre ++ x :: post /\ P x /\ forall y, In y pre -> ~ P y.

(** A text mentions one of the words in upper or lower case. *)
Definition MentionsCI (words : list string) (s : string) : Prop :=
  exists w t, In w words /\ CaseEq s t /\ Mentions w t.
Definition NamedLike (words : list string) (v : svar) : Prop :=
  MentionsCI words (sv_name v) \/ exists s, attr v "standard_name" = Some s /\ MentionsCI words s.
Definition XLike := NamedLike ["x"; "lon"; "longitude"].
Definition YLike := NamedLike ["y"; "lat"; "latitude"].
Definition SameNames (a b : list string) : Prop := forall d, In d a <-> In d b.
Definition Lies (v : svar) (dims : list string) : Prop := SameNames (sv_dims v) dims.
(** Words joined by single spaces. *)
Fixpoint spaced (l : list string) : string :=
  match l with [] => "" | [w] => w | w :: r => (w ++ " " ++ spaced r)%string end.
Fixpoint NoSpace (s : string) : Prop := match s with "" => True | String c r => c <> " "%char /\ NoSpace r end.
Definition Lon (v : svar) : Prop :=
  MentionsCI ["lon"] (sv_name v) \/ (exists s, attr v "standard_name" = Some s /\ MentionsCI ["longitude"] s)
  \/ (exists s, attr v "description" = Some s /\ MentionsCI ["longitude"] s).
Definition Lat (v : svar) : Prop :=
  MentionsCI ["lat"] (sv_name v) \/ (exists s, attr v "standard_name" = Some s /\ MentionsCI ["latitude"] s)
  \/ (exists s, attr v "description" = Some s /\ MentionsCI ["latitude"] s).
Definition Carries (loc : string) (v : svar) : Prop := attr v "location" = Some loc.
Definition MaskVar (v : svar) : Prop :=
  Mentions "mask" (sv_name v) \/ exists l, attr v "long_name" = Some l /\ Mentions "mask" l.

(** Python slicing: the indices of a dimension of length [len] kept by
    [lo:hi], None standing for the end, negative numbers counting back. *)
Definition bound (len : nat) (z : Z) : Z := if (z <? 0)%Z then (z + Z.of_nat len)%Z else z.
Definition Kept (len : nat) (s : option Z * option Z) (i : nat) : Prop :=
  i < len /\
  match fst s with None => True | Some lo => (bound len lo <= Z.of_nat i)%Z end /\
  match snd s with None => True | Some hi => (Z.of_nat i < bound len hi)%Z end.
(** Entries added before and after the cells by each padding word. *)
Inductive PadWord : string -> nat -> nat -> Prop :=
| pw_both : PadWord "both" 1 1
| pw_none : PadWord "none" 0 0
| pw_low : PadWord "low" 1 0
| pw_high : PadWord "high" 0 1.
Definition KnownWord (w : string) : Prop := exists a b, PadWord w a b.

(** The entry that governs a dimension. *)
Definition Governs (l : list padding) (d : string) (p : padding) : Prop := FirstOf (fun q => face_dim q = d) l p.
Definition Ungoverned (l : list padding) (d : string) : Prop := forall p, In p l -> face_dim p <> d.
(** Dimension names in the node_dimensions attribute. *)
Definition Shares (a b : list string) : Prop := exists d, In d a /\ In d b.
Definition entries (o : option (list padding)) : list padding := match o with Some l => l | None => [] end.
(** The entries that apply to a variable: the face entries alone if it has a
    node dimension, all of them otherwise. *)
Definition applicable (g : sgrid) (node_dims dims : list string) (l : list padding) : Prop :=
  (Shares dims node_dims /\ l = entries (sg_face g)) \/
  (~ Shares dims node_dims /\ l = entries (sg_face g) ++ entries (sg_edge1 g) ++ entries (sg_edge2 g) ++ entries (sg_vertical g)).
Definition applicable2 (g : sgrid) (node_dims dims : list string) (l : list padding) : Prop :=
  (Shares dims node_dims /\ l = entries (sg_face g)) \/
  (~ Shares dims node_dims /\ l = entries (sg_face g) ++ entries (sg_edge1 g) ++ entries (sg_edge2 g)).
(** A grid loaded from a file with face and vertical dimensions. *)
Definition Complete (g : sgrid) : Prop :=
  (exists p q r, sg_face g = Some (p :: q :: r)) /\ sg_vertical g <> None.
Definition KnownWords (g : sgrid) : Prop :=
  forall p, In p (entries (sg_face g) ++ entries (sg_edge1 g) ++ entries (sg_edge2 g) ++ entries (sg_vertical g)) -> KnownWord (pad_type p).
