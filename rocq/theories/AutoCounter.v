(** * Rotations with autos used in examples and refutations *)

From Coq Require Import ZArith QArith List String Bool Lia Permutation Sorted.
From Verif Require Import Base Float Types Lookup StatusEffect Stats Library Events Rotation SpecQueue SpecPlay SpecTimeline
  SpecAuto SpecRun RunProps RunCounter AutoProps Fixtures.
Import ListNotations.
Open Scope string_scope.
Open Scope Z_scope.

Definition ax_builder : res builder := fx_builder true false (Some 0) (RWTuple []).

(** What an auto in a cast looks like: the skill [pr_name p] is pressed once, at [p];
    its event [e] snapshots during the cast (500 ms before its end); the auto [a] is
    not the first and snapshots between. *)
Definition auto_in_cast (b' : builder) (p : press) (e a : event) : Prop :=
  In p (get_button_press_timing b')
  /\ (forall p', In p' (get_button_press_timing b') -> pr_name p' = pr_name p -> p' = p)
  /\ In e (timeline b') /\ sk_name (ev_skill e) = pr_name p
  /\ In a (timeline b') /\ damages a DC_AUTO
  /\ (exists a0, In a0 (timeline b') /\ damages a0 DC_AUTO /\ ev_primary a0 < ev_primary a)
  /\ pr_time p < ev_primary a < ev_primary e.

(** Casts queued with [add_next] do not hold autos back. *)
Definition ax_queued : res builder := and_next (and_next (and_next ax_builder "Hit" 3 None) "Cast" 1 None) "Hit" 1 None.
Lemma ax_queued_ok : ax_queued = Ok (fst (ran ax_queued)) /\ get_skill_timing (fst (ran ax_queued)) = Ok (snd (ran ax_queued)).
Proof. split; vm_compute; reflexivity. Qed.
Lemma ax_queued_built : built (fst (ran ax_queued)).
Proof.
  assert (H : all_built ax_queued) by (repeat apply and_next_built; apply init_built). apply H, ax_queued_ok.
Qed.

(** The event that snapshots at [t]. *)
Definition no_event : event := entry (auto_entry fx_auto 0 0 "").
Definition event_at (b : builder) (t : Z) : event :=
  match find (fun e => ev_primary e =? t) (timeline b) with Some e => e | None => no_event end.
Lemma event_at_in b t : existsb (fun e => ev_primary e =? t) (timeline b) = true -> In (event_at b t) (timeline b) /\ ev_primary (event_at b t) = t.
Proof.
  intros H. unfold event_at. destruct (find _ _) as [e|] eqn:E.
  - apply find_some in E as (I & T). apply Z.eqb_eq in T. auto.
  - apply existsb_exists in H as (e & I & T). apply (find_none _ _ E) in I. congruence.
Qed.

Lemma queued_cast_refuted :
  ~ (forall b b' p e a, built b -> get_skill_timing b = Ok b' -> ~ auto_in_cast b' p e a).
Proof.
  intros H. set (b' := snd (ran ax_queued)).
  apply (H _ b' (mkPress 7320 "Cast" "" "") (event_at b' 8280) (event_at b' 7380) ax_queued_built (proj2 ax_queued_ok)).
  destruct (event_at_in b' 500) as (I0 & T0); [vm_compute; reflexivity|].
  destruct (event_at_in b' 7380) as (Ia & Ta); [vm_compute; reflexivity|].
  destruct (event_at_in b' 8280) as (Ie & Te); [vm_compute; reflexivity|].
  split; [vm_compute; tauto|]. split.
  { intros p' Hp' N. vm_compute in Hp'. repeat destruct Hp' as [<-|Hp']; try discriminate N; [reflexivity | destruct Hp']. }
  split; [exact Ie|]. split; [vm_compute; reflexivity|]. split; [exact Ia|].
  split; [eexists; split; vm_compute; reflexivity|]. split.
  { exists (event_at b' 500). split; [exact I0|]. split; [eexists; split; vm_compute; reflexivity|]. rewrite T0, Ta. reflexivity. }
  rewrite Ta, Te. cbn. lia.
Qed.

(** Two overlapping casts given with [add]: the auto put off by the first falls in the second. *)
Definition ax_overlap : res builder :=
  and_add (and_add (and_add (and_add ax_builder 0 "Hit" None None) (dec 3500 1000) "Cast" None None)
    (dec 4900 1000) "Cast" None None) 9 "Hit" None None.
Lemma ax_overlap_ok : ax_overlap = Ok (fst (ran ax_overlap)) /\ get_skill_timing (fst (ran ax_overlap)) = Ok (snd (ran ax_overlap)).
Proof. split; vm_compute; reflexivity. Qed.
Lemma ax_overlap_built : built (fst (ran ax_overlap)).
Proof.
  assert (H : all_built ax_overlap) by (repeat apply and_add_built; apply init_built). apply H, ax_overlap_ok.
Qed.
Lemma overlap_refuted :
  ~ (forall b b' ps e p, built b -> get_skill_timing b = Ok b' -> get_no_auto_periods b = Ok ps -> In e (timeline b') -> damages e DC_AUTO ->
       (exists e0, In e0 (timeline b') /\ damages e0 DC_AUTO /\ ev_primary e0 < ev_primary e) ->
       In p ps -> ~ inside p (ev_primary e)).
Proof.
  intros H. set (b' := snd (ran ax_overlap)).
  destruct (event_at_in b' 500) as (I0 & T0); [vm_compute; reflexivity|].
  destruct (event_at_in b' 4960) as (Ia & Ta); [vm_compute; reflexivity|].
  apply (H _ b' [(3500, Fin 4960); (4900, Fin 6360)] (event_at b' 4960) (4900, Fin 6360) ax_overlap_built (proj2 ax_overlap_ok)).
  - vm_compute. reflexivity.
  - exact Ia.
  - eexists; split; vm_compute; reflexivity.
  - exists (event_at b' 500). split; [exact I0|]. split; [eexists; split; vm_compute; reflexivity|]. rewrite T0, Ta. reflexivity.
  - cbn. tauto.
  - rewrite Ta. split; cbn; lia.
Qed.
