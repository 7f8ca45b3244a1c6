(** * C63, C64: rotations that can be built *)

From Coq Require Import ZArith QArith List String Bool.
From Verif Require Import Base Float Types Lookup Stats Library Events Rotation SpecTimeline SpecGame SpecRun SpecAuto SpecHit
  GameLib SpecSafe SafeFacts SafeGame SafeCase.
Import ListNotations.
Open Scope string_scope.
Open Scope Z_scope.

(** ** C63: get_skill_timing raises nothing for presses that can be made *)

Theorem C63_no_exception : forall b,
  reachable b -> pressable b -> (b_autos b = true -> autos_possible b) -> exists b', get_skill_timing b = Ok b'.
Proof. exact timing_safe. Qed.
Print Assumptions C63_no_exception.

(** A case with auto attacks, a downtime window and another job's skill. *)
Example C63_case : exists b,
  case_builder "WAR" true party_presses = Ok b /\ reachable b /\ pressable b /\ autos_possible b.
Proof.
  destruct party_case as (b & E & R & S & A). exists b.
  exact (conj E (conj R (conj (shipped_pressable _ _ b R S) (shipped_autos_possible _ _ b R S A)))).
Qed.

(** Auto attacks with nothing that hits: a Warrior pressing only Chain Stratagem. *)
Theorem C63_autos_need_a_hit_refuted : exists b,
  case_builder "WAR" true [(0, "Chain Stratagem", "SCH")] = Ok b /\ reachable b
  /\ create_skill_library "7.05" 100 = Ok (b_library b) /\ stats_of (case_gear "WAR") = Ok (b_stats b)
  /\ get_skill_timing b = Err TypeError.
Proof. exact (proj2 (proj2 raising_cases)). Qed.
Print Assumptions C63_autos_need_a_hit_refuted.

(** ** C64: rotations of shipped skills *)

Theorem C64_shipped_rotations_partial : forall v lv b,
  reachable b -> shipped_rotation v lv b -> (b_autos b = true -> shipped_autos v b) ->
  exists b', get_skill_timing b = Ok b'.
Proof. exact shipped_timing_safe. Qed.
Print Assumptions C64_shipped_rotations_partial.

Example C64_case : exists b,
  case_builder "WAR" true party_presses = Ok b /\ reachable b
  /\ shipped_rotation "7.05" 100 b /\ shipped_autos "7.05" b.
Proof. exact party_case. Qed.

(** A Machinist's only press is Automaton Queen. *)
Theorem C64_automaton_queen_refuted : exists b,
  case_builder "MCH" false [(0, "Automaton Queen", "MCH")] = Ok b /\ reachable b
  /\ create_skill_library "7.05" 100 = Ok (b_library b) /\ stats_of (case_gear "MCH") = Ok (b_stats b)
  /\ get_skill_timing b = Err KeyError.
Proof. exact (proj1 raising_cases). Qed.
Print Assumptions C64_automaton_queen_refuted.

(** A Bard in the party presses Radiant Finale during a Warrior's rotation. *)
Theorem C64_radiant_finale_refuted : exists b,
  case_builder "WAR" false [(0, "Radiant Finale", "BRD")] = Ok b /\ reachable b
  /\ create_skill_library "7.05" 100 = Ok (b_library b) /\ stats_of (case_gear "WAR") = Ok (b_stats b)
  /\ get_skill_timing b = Err KeyError.
Proof. exact (proj1 (proj2 raising_cases)). Qed.
Print Assumptions C64_radiant_finale_refuted.
