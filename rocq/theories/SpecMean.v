(** * C91: expected damage as the rates rise *)

From Coq Require Import ZArith QArith List.
From Verif Require Import Base Float Types Stats DamageBuild Damage.

(** Never less, but for the rounding of the probabilities: one part in 2^50. *)
Definition no_less (x y : Q) : Prop := (x * (1 - pow2 (-50)) <= y)%Q.
Definition total (l : list Q) : Q := fold_right Qplus 0%Q l.
