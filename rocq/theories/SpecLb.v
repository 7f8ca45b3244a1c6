(** * Specification vocabulary for limit breaks in kill times (C88) *)

From Coq Require Import ZArith NArith QArith List String Ascii Bool.
Import ListNotations.
Open Scope string_scope.

(** The characters '0' to '9'. *)
Definition digit_char (d : N) : ascii := ascii_of_N (48 + d).
(** Decimal digits, the last one the least. *)
Inductive numeral : string -> N -> Prop :=
| num_one d : (d < 10)%N -> numeral (String (digit_char d) "") d
| num_more s n d : numeral s n -> (d < 10)%N -> numeral (s ++ String (digit_char d) "") (10 * n + d).
Definition no_digit_first (s : string) : Prop :=
  match s with EmptyString => True | String c _ => forall d, (d < 10)%N -> c <> digit_char d end.

(** The condition begins with the label, a blank and the whole number [n]. *)
Definition written (label : string) (n : N) (condition : string) : Prop :=
  exists s rest, condition = label ++ " " ++ s ++ rest /\ numeral s n /\ no_digit_first rest.

(** The name has "LB" in it. *)
Definition limit_break (name : string) : Prop := exists a b, name = a ++ "LB" ++ b.
