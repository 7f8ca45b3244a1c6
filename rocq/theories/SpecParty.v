(** * Specification vocabulary for who is in an estimate (C90) *)

From Coq Require Import ZArith QArith List String Bool.
From Verif Require Import Base Types Lookup Stats Library Events Rotation DamageBuild Damage KillTime SpecHit SpecKill.

(** No hit of the rotation has a negative number, and its draws are those of NumPy. *)
Definition sound_play (x : builder * rotation_draws) : Prop :=
  (exists g, stats_of g = Ok (b_stats (fst x)) /\ (0 <= g_crit g)%Q) /\ hits_nonneg (fst x) /\ draws_ok (snd x).
