(** What the mask conversion should do. *)
From Coq Require Import String Ascii.
From Verif Require Import Common GridTypeSpec MaskModel.
Open Scope string_scope.
Open Scope list_scope.

(** A word meaning water: it contains "water" or "lake" in any letter case. *)
Definition WaterWord (s : string) : Prop :=
  exists a w b, s = (a ++ w ++ b)%string /\ (CaseEq w "water" \/ CaseEq w "lake").

(** The word paired with the last occurrence of [v] among the flag values that
    have a word at all. *)
Inductive LastWord (v : Z) (keys : list Z) (words : list string) (w : string) : Prop :=
| last_word i : nth_error keys i = Some v -> nth_error words i = Some w ->
    (forall j, (i < j)%nat -> (j < length words)%nat -> nth_error keys j <> Some v) ->
    LastWord v keys words w.
Definition NoWord (v : Z) (keys : list Z) (words : list string) : Prop :=
  forall i, (i < length words)%nat -> nth_error keys i <> Some v.

(** Blank-separated words. *)
Definition Blank (c : ascii) : Prop := In (nat_of_ascii c) [9; 10; 11; 12; 13; 32]%nat.
Fixpoint all_chars (P : ascii -> Prop) (s : string) : Prop :=
  match s with EmptyString => True | String c r => P c /\ all_chars P r end.
Definition IsWord (w : string) : Prop := w <> "" /\ all_chars (fun c => ~ Blank c) w.
Definition Gap (g : string) : Prop := all_chars Blank g.
(** [s] is gap w1 gap w2 ... wn gap with non-empty gaps between words. *)
Inductive Words : string -> list string -> Prop :=
| words_nil g : Gap g -> Words g []
| words_one g w g' : Gap g -> IsWord w -> Gap g' -> Words (g ++ w ++ g')%string [w]
| words_cons g w g' s l : Gap g -> IsWord w -> Gap g' -> g' <> "" -> Words s l ->
    Words (g ++ w ++ g' ++ s)%string (w :: l).
