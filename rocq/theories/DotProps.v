(** * Consequences of the tick specification *)

From Coq Require Import ZArith QArith List String Bool Lia Permutation Sorted.
From Verif Require Import Base Float Types Lookup Stats Library Events Rotation SpecQueue EventsFacts SpecPlay SpecTimeline TimelineFacts SpecDots
  SpecRun RunProps.
Import ListNotations.
Open Scope Z_scope.

Lemma superseded_total i j a b : i <> j -> superseded_by i a j b \/ superseded_by j b i a.
Proof. unfold superseded_by. lia. Qed.
Lemma ticks_no_interleaving first dur h i j e e' t t' :
  app_time e' <= first (app_time e') ->
  nth_error h i = Some e -> nth_error h j = Some e' ->
  superseded_by i (app_time e) j (app_time e') ->
  ticks_at first dur h i t -> ticks_at first dur h j t' ->
  t < app_time e' <= t'.
Proof.
  intros F Hi Hj S (x & Hx & _ & _ & N) (y & Hy & (k & Hk & Et) & _ & _).
  rewrite Hi in Hx. injection Hx as <-. rewrite Hj in Hy. injection Hy as <-.
  specialize (N j e' Hj S). lia.
Qed.
Lemma ticks_progression first dur h i e t :
  nth_error h i = Some e ->
  (ticks_at first dur h i t <->
   (exists k, 0 <= k /\ t = first (app_time e) + 3000 * k)
   /\ t < app_time e + dur
   /\ forall j e', nth_error h j = Some e' -> superseded_by i (app_time e) j (app_time e') -> t < app_time e').
Proof.
  intros Hi. unfold ticks_at. split.
  - intros (x & Hx & H). rewrite Hi in Hx. injection Hx as <-. exact H.
  - intros H. exists e. split; [exact Hi | exact H].
Qed.
Lemma tick_event fu target n e t :
  ev_primary (entry (tick_entry fu target n e t)) = app_snapshot e
  /\ effect_time (entry (tick_entry fu target n e t)) t
  /\ ev_targets (entry (tick_entry fu target n e t)) = [target]
  /\ ev_skill (entry (tick_entry fu target n e t)) = fu_skill fu
  /\ (t <> app_snapshot e ->
      ev_snap (entry (tick_entry fu target n e t)) = (SFlag (fu_snap_buffs fu), SFlag (fu_snap_debuffs fu))).
Proof.
  split; [reflexivity|]. split; [apply effect_time_ev; apply entry_time_tick|]. split; [reflexivity|]. split; [reflexivity|].
  intros N. cbn. destruct (Z.eq_dec t (app_snapshot e)); [contradiction | reflexivity].
Qed.
Lemma ticks_aligned s0 o first dur h i e t :
  first_ticks (Some s0) first -> (fmul 1000 s0 == inject_Z o)%Q -> Z.abs o <= 2 ^ 51 ->
  nth_error h i = Some e -> Z.abs (app_time e) <= 2 ^ 51 ->
  ticks_at first dur h i t ->
  (3000 | t - o) /\ app_time e <= t
  /\ app_time e <= first (app_time e) < app_time e + 3000
  /\ exists k, 0 <= k /\ t = first (app_time e) + 3000 * k.
Proof.
  intros F Ho Bo Hi Ba (x & Hx & (k & Hk & Et) & _ & _). rewrite Hi in Hx. injection Hx as <-.
  destruct (F o Ho Bo (app_time e) Ba) as (A & (z & B)).
  split; [exists (z + k); lia|]. split; [lia|]. split; [exact A|]. exists k. auto.
Qed.
Lemma ticks_unaligned first dur h i e t :
  first_ticks None first -> nth_error h i = Some e -> ticks_at first dur h i t ->
  exists k, 0 <= k /\ t = app_time e + 3000 * k.
Proof.
  intros F Hi (x & Hx & (k & Hk & Et) & _ & _). rewrite Hi in Hx. injection Hx as <-. rewrite (F (app_time e)) in Et. exists k. auto.
Qed.
