(** Lemmas about levels listed upwards, asked below the last of them. *)
From Coq Require Import Lqa.
From Verif Require Import Common CommonProofs VariableModel DepthModel DepthSpec DepthProofs WholeSpec AnyDepthSpec AnyDepthProofs UpSpec UpWaterSpec.
Open Scope list_scope.
Open Scope Q_scope.

Lemma not_top levels ls z b : levels = Some ls -> Last ls b -> ~ AtTop levels z -> b < z.
Proof. intros E B T. destruct (Qlt_le_dec b z) as [|L]; [assumption|]. exfalso. apply T. exists ls, b. auto. Qed.
Lemma upwards_any levels z : LevelsOk levels -> Upwards levels -> ~ AtTop levels z -> Answerable levels default_sbc default_bbc z.
Proof.
  intros L (ls & E & D) T ls' E'. rewrite E in E'. injection E' as <-. destruct (L ls E) as [N _]. destruct (ends_exist ls N) as (a & b & Ha & Hb). pose proof (not_top _ _ _ _ E Hb T) as Lb.
  destruct (Qlt_le_dec a z) as [La|La].
  - left. exists a, b. split; [exact Ha|split; [exact Hb|]]. right; right; left. auto.
  - right. exists z. exists a, b. split; [exact Ha|split; [exact Hb|]]. right; left. auto.
Qed.
Lemma upwards_water levels z P c : LevelsOk levels -> Upwards levels -> ~ AtTop levels z -> AtAnyDepth levels default_sbc default_bbc z P c -> UnderWater levels z P c.
Proof.
  intros L (ls & E & D) T. subst levels. destruct (L ls eq_refl) as [N _]. destruct (ends_exist ls N) as (a' & b & Ha' & Hb). pose proof (not_top _ _ _ _ eq_refl Hb T) as Lb.
  intros [H1 H2] a Ha. split; intros X.
  - apply H1. exists a, b. split; [exact Ha|split; [exact Hb|]]. right; right; left. auto.
  - apply H2. exists a, b. split; [exact Ha|split; [exact Hb|]]. right; left. auto.
Qed.
