(** * Specification vocabulary for ignoring trailing ticks (C92) *)

From Coq Require Import ZArith QArith List String Bool.
From Verif Require Import Base Types Lookup Library Stats Events Rotation DamageBuild SpecGame SpecRun SpecIdle.
Import ListNotations.
Open Scope Z_scope.

(** A damage-over-time effect some press of the rotation can apply. *)
Definition dot_of (b : builder) (fu : follow_up) : Prop :=
  fu_dot fu <> None /\ exists s m fus, In s (skills_of b) /\ get_follow_up_skills s m = Ok fus /\ In fu fus.

(** Ticks grant nothing, and nothing in the rotation counts them. *)
Definition inert_dots (b : builder) : Prop := forall fu, dot_of b fu -> grants_nothing (fu_skill fu) /\ uncounted b (sk_name (fu_skill fu)).
