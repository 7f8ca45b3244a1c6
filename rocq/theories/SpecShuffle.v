(** * Specification vocabulary for the order of calls (C74) *)

From Coq Require Import ZArith QArith List String Bool Permutation.
From Verif Require Import Base Float Types Stats Library Rotation SpecReplay.
Import ListNotations.
Open Scope Z_scope.

(** A call on a builder: the next press, some number of times, or a press at a time in seconds. *)
Inductive instr :=
| NextPress (c : call) (n : Z)
| PressAt (t : Q) (c : call).
Definition is_at (i : instr) : bool := match i with PressAt _ _ => true | NextPress _ _ => false end.
Definition carry_out (b : builder) (i : instr) : res builder :=
  match i with
  | NextPress c n => add_next b (c_name c) (c_modifier c) (c_job c) n (c_targets c)
  | PressAt t c => add b t (c_name c) (c_modifier c) (c_job c) (c_targets c)
  end.
Definition follow (b : builder) (l : list instr) : res builder := foldM carry_out l b.

(** The same calls, the sequenced ones in the same order. *)
Definition reordered (l l' : list instr) : Prop :=
  Permutation l l' /\ filter (fun i => negb (is_at i)) l = filter (fun i => negb (is_at i)) l'.
