(** Lemmas about levels listed upwards on staggered grids, asked below the last of
    them. *)
From Coq Require Import Reals String Lqa.
From Verif Require Import Common CommonProofs VariableModel DepthModel DepthSpec DepthProofs WholeSpec AnyDepthSpec SGridInterpModel SAnyDepthSpec UpSpec UpWaterSpec UpWaterProofs SUpWaterSpec.
Open Scope list_scope.
Open Scope nat_scope.

Lemma upwards_ranswer ls z : 2 <= length ls -> Descending ls -> ~ AtTop (Some ls) z -> Answerable (Some ls) default_sbc default_bbc z.
Proof. intros L D T. apply upwards_any; auto; [intros l E; injection E as <-; split; [exact L|right; exact D]|exists ls; auto]. Qed.
Lemma upwards_rwater ls z P c : 2 <= length ls -> Descending ls -> ~ AtTop (Some ls) z -> RAnyDepth ls default_sbc default_bbc z P c -> RUnderWater ls z P c.
Proof.
  intros N D T [H1 H2] a Ha. destruct (ends_exist ls N) as (a' & b & Ha' & Hb). pose proof (not_top _ _ _ _ eq_refl Hb T) as Lb. split; intros X.
  - apply H1. exists a, b. split; [exact Ha|split; [exact Hb|]]. right; right; left. auto.
  - apply H2. exists a, b. split; [exact Ha|split; [exact Hb|]]. right; left. auto.
Qed.
