(** * Specification vocabulary for condition strings and tables (C06-C10)

    Only the standard library's strings and lists are used. *)

From Coq Require Import ZArith QArith List String Ascii Bool.
Import ListNotations.
Open Scope string_scope.

(** The ASCII characters Python's [str.isspace] accepts. *)
Definition space (c : ascii) : Prop := In (nat_of_ascii c) [9; 10; 11; 12; 13; 28; 29; 30; 31; 32]%nat.

Fixpoint chars (s : string) : list ascii :=
  match s with EmptyString => [] | String c s' => c :: chars s' end.
Definition comma_free (s : string) : Prop := ~ In ","%char (chars s).
Definition blank (s : string) : Prop := forall c, In c (chars s) -> space c.
(** No white space at either end. *)
Definition trimmed (s : string) : Prop :=
  (forall c s', s = String c s' -> ~ space c) /\ (forall c s', s = s' ++ String c "" -> ~ space c).
(** [x] is [p] without the surrounding white space. *)
Definition trim_of (p x : string) : Prop :=
  exists a b, p = a ++ x ++ b /\ blank a /\ blank b /\ trimmed x.

(** Same elements. *)
Definition same_set (a b : list string) : Prop := forall x, In x a <-> In x b.

(** A table key as a set, distinct from all others. *)
Inductive distinct_sets : list (list string) -> Prop :=
| ds_nil : distinct_sets []
| ds_cons k l : NoDup k -> (forall k', In k' l -> ~ same_set k k') -> distinct_sets l ->
                distinct_sets (k :: l).

(** The key that must be selected: matching, of maximal size, last declared among
    the matching keys of that size. *)
Definition best_key (keys : list (list string)) (active k : list string) : Prop :=
  exists before after,
    keys = (before ++ k :: after)%list
    /\ incl k active
    /\ (forall k', In k' keys -> incl k' active -> (List.length k' <= List.length k)%nat)
    /\ (forall k', In k' after -> incl k' active -> (List.length k' < List.length k)%nat).
