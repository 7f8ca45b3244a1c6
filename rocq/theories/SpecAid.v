(** * Specification vocabulary for kills that come no later (C89) *)

From Coq Require Import ZArith QArith List String Bool Permutation.
From Verif Require Import Base Types Lookup Stats Library Events Rotation DamageBuild Damage KillTime SpecHit SpecKill SpecGear SpecReport SpecBuff.
Import ListNotations.

(** The hits of a rotation. *)
Definition run_hits (b : builder) (hits : list instance) : Prop := exists tk r tk' qu,
  db_init (b_stats b) (b_library b) = Ok tk /\ get_skill_timing b = Ok r /\ get_damage_instances tk (b_queue r) = Ok (tk', qu, hits).

(** Each hit of [l] has a hit of its own in [l'], the same one with effects that help at least as much. *)
Definition paired (f : nat -> nat) (l l' : list instance) : Prop :=
  (forall i j, f i = f j -> i = j)
  /\ forall i x, nth_error l i = Some x -> exists x', nth_error l' (f i) = Some x' /\ boosted_hit x x'.

(** The rotation [b'] has the hits of [b], paired by [f] in order of time, and perhaps further ones. *)
Definition aided_by (f : nat -> nat) (b b' : builder) : Prop :=
  b_stats b' = b_stats b /\ (exists g, gear_nonneg g /\ stats_of g = Ok (b_stats b))
  /\ exists hits hits' xs xs', run_hits b hits /\ run_hits b' hits' /\ Forall sane_hit hits /\ Forall sane_hit hits'
     /\ in_time_order hits xs /\ in_time_order hits' xs' /\ paired f xs xs'.

(** A hit and its counterpart draw the same. *)
Definition same_luck (f : nat -> nat) (u u' : rotation_draws) : Prop :=
  forall i j, rd_sample u' (f i) j = rd_sample u i j /\ rd_lb u' (f i) j = rd_lb u i j.
Definition aided (x y : builder * rotation_draws) : Prop := exists f, aided_by f (fst x) (fst y) /\ same_luck f (snd x) (snd y).
