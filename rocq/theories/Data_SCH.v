(** * SCH: the shipped skill definitions.

    Generated by tools/gen_game_data.py from
    simulator/game_data/class_skills/healer/sch.py and simulator/game_data/class_skills/healer/sch_data.py. *)

From Coq Require Import ZArith List String.
From Verif Require Import Py.
Import ListNotations.
Open Scope string_scope.
Open Scope Z_scope.

(** simulator/game_data/class_skills/healer/sch_data.py lines 8-17, in dict-literal order *)
Definition sch_data : data_table := [
  ("Broil IV", [(90, [("potency", [(V655, (EInt 295))])]); (100, [("potency", [(V70, (EInt 310))])])]);
  ("Ruin II", [(90, [("potency", [(V655, (EInt 220))])]); (100, [("potency", [(V70, (EInt 220))])])]);
  ("Energy Drain", [(90, [("potency", [(V655, (EInt 100))])]); (100, [("potency", [(V70, (EInt 100))])])]);
  ("Art of War II", [(90, [("potency", [(V655, (EInt 180))])]); (100, [("potency", [(V70, (EInt 180))])])]);
  ("Chain Stratagem", [(90, [("duration", [(V655, (EBin BMul (EInt 15) (EInt 1000))); (V70, (EBin BMul (EInt 20) (EInt 1000)))])]); (100,
  [("duration", [(V70, (EBin BMul (EInt 20) (EInt 1000)))])])]);
  ("Biolysis (dot)", [(90, [("potency", [(V655, (EInt 70))])]); (100, [("potency", [(V70, (EInt 75))])])]);
  ("Baneful Impaction (dot)", [(100, [("potency", [(V70, (EInt 140))])])])].

(** simulator/game_data/class_skills/healer/sch.py lines 22-31: auto *)
Definition sch_m0 : pmethod := mkMethod "auto" []
  [SAsg "name" (EStr "Auto"); SRet (ECall "Skill" [] [("name", (EVar "name")); ("is_GCD", (EBool false)); ("timing_spec", (ESelf "auto_timing_spec"));
  ("damage_spec", (ECall "DamageSpec" [] [("potency", (EInt 90)); ("damage_class", (EConst "DamageClass.AUTO")); ("trait_damage_mult_override", (EInt
  1))]))])].

(** simulator/game_data/class_skills/healer/sch.py lines 34-43: broil_iv *)
Definition sch_m1 : pmethod := mkMethod "broil_iv" []
  [SAsg "name" (EStr "Broil IV"); SRet (ECall "Skill" [] [("name", (EVar "name")); ("is_GCD", (EBool true)); ("timing_spec", (ECall "TimingSpec" []
  [("base_cast_time", (EInt 1500)); ("animation_lock", (EInt 100)); ("application_delay", (EInt 800))])); ("damage_spec", (ECall "DamageSpec" []
  [("potency", (EPot (EVar "name")))]))])].

(** simulator/game_data/class_skills/healer/sch.py lines 46-55: ruin_ii *)
Definition sch_m2 : pmethod := mkMethod "ruin_ii" []
  [SAsg "name" (EStr "Ruin II"); SRet (ECall "Skill" [] [("name", (EVar "name")); ("is_GCD", (EBool true)); ("timing_spec", (ECall "TimingSpec" []
  [("base_cast_time", (EInt 0)); ("animation_lock", (EInt 650)); ("application_delay", (EInt 940))])); ("damage_spec", (ECall "DamageSpec" []
  [("potency", (EPot (EVar "name")))]))])].

(** simulator/game_data/class_skills/healer/sch.py lines 58-67: energy_drain *)
Definition sch_m3 : pmethod := mkMethod "energy_drain" []
  [SAsg "name" (EStr "Energy Drain"); SRet (ECall "Skill" [] [("name", (EVar "name")); ("is_GCD", (EBool false)); ("timing_spec", (ECall "TimingSpec"
  [] [("base_cast_time", (EInt 0)); ("animation_lock", (EInt 650)); ("application_delay", (EInt 1070))])); ("damage_spec", (ECall "DamageSpec" []
  [("potency", (EPot (EVar "name")))]))])].

(** simulator/game_data/class_skills/healer/sch.py lines 70-80: art_of_war_ii *)
Definition sch_m4 : pmethod := mkMethod "art_of_war_ii" []
  [SAsg "name" (EStr "Art of War II"); SRet (ECall "Skill" [] [("name", (EVar "name")); ("is_GCD", (EBool true)); ("timing_spec", (ECall "TimingSpec"
  [] [("base_cast_time", (EInt 0)); ("animation_lock", (EInt 650)); ("application_delay", (EInt 670))])); ("damage_spec", (ECall "DamageSpec" []
  [("potency", (EPot (EVar "name")))])); ("has_aoe", (EBool true))])].

(** simulator/game_data/class_skills/healer/sch.py lines 83-96: add_chain_stratagem *)
Definition sch_m5 : pmethod := mkMethod "add_chain_stratagem" []
  [SAsg "name" (EStr "Chain Stratagem"); SRet (ECall "Skill" [] [("name", (EVar "name")); ("is_GCD", (EBool false)); ("timing_spec", (ECall
  "TimingSpec" [] [("base_cast_time", (EInt 0)); ("animation_lock", (EInt 650)); ("application_delay", (EInt 800))])); ("debuff_spec", (ECall
  "StatusEffectSpec" [] [("duration", (EData (EVar "name") (EStr "duration"))); ("crit_rate_add", (EFlt 1 10)); ("is_party_effect", (EBool
  true))]))])].

(** simulator/game_data/class_skills/healer/sch.py lines 99-126: biolysis *)
Definition sch_m6 : pmethod := mkMethod "biolysis" []
  [SAsg "name" (EStr "Biolysis (dot)"); SAsg "biolysis_dot" (ECall "Skill" [] [("name", (EVar "name")); ("is_GCD", (EBool false)); ("damage_spec",
  (ECall "DamageSpec" [] [("potency", (EPot (EVar "name"))); ("damage_class", (EConst "DamageClass.MAGICAL_DOT"))]))]); SAsg "name" (EStr "Biolysis");
  SRet (ECall "Skill" [] [("name", (EVar "name")); ("is_GCD", (EBool true)); ("timing_spec", (ECall "TimingSpec" [] [("base_cast_time", (EInt 0));
  ("animation_lock", (EInt 650)); ("application_delay", (EInt 670))])); ("follow_up_skills", (ETup [(ECall "FollowUp" [] [("skill", (EVar
  "biolysis_dot")); ("delay_after_parent_application", (EInt 0)); ("dot_duration", (EBin BMul (EInt 30) (EInt 1000))); ("snapshot_buffs_with_parent",
  (EBool true)); ("snapshot_debuffs_with_parent", (EBool true))])]))])].

(** simulator/game_data/class_skills/healer/sch.py lines 129-160: baneful_impaction *)
Definition sch_m7 : pmethod := mkMethod "baneful_impaction" []
  [SIf (ELev OLt K92) [SRet ENone] []; SAsg "name" (EStr "Baneful Impaction (dot)"); SAsg "baneful_dot" (ECall "Skill" [] [("name", (EVar "name"));
  ("is_GCD", (EBool false)); ("damage_spec", (ECall "DamageSpec" [] [("potency", (EPot (EVar "name"))); ("damage_class", (EConst
  "DamageClass.MAGICAL_DOT"))]))]); SAsg "name" (EStr "Baneful Impaction"); SRet (ECall "Skill" [] [("name", (EVar "name")); ("is_GCD", (EBool true));
  ("timing_spec", (ECall "TimingSpec" [] [("base_cast_time", (EInt 0)); ("animation_lock", (EInt 650)); ("application_delay", (EInt 1290))]));
  ("follow_up_skills", (ETup [(ECall "FollowUp" [] [("skill", (EVar "baneful_dot")); ("delay_after_parent_application", (EInt 0)); ("dot_duration",
  (EBin BMul (EInt 15) (EInt 1000))); ("snapshot_buffs_with_parent", (EBool true)); ("snapshot_debuffs_with_parent", (EBool true))])])); ("has_aoe",
  (EBool true))])].

(** simulator/game_data/class_skills/healer/sch.py lines 163-175: swiftcast *)
Definition sch_m8 : pmethod := mkMethod "swiftcast" []
  [SAsg "name" (EStr "Swiftcast"); SRet (ECall "Skill" [] [("name", (EVar "name")); ("is_GCD", (EBool false)); ("timing_spec", (ESelf
  "instant_timing_spec")); ("buff_spec", (ECall "StatusEffectSpec" [] [("flat_cast_time_reduction", (EConst "math.inf")); ("duration", (EBin BMul
  (EInt 10) (EInt 1000))); ("num_uses", (EInt 1)); ("skill_allowlist", (ETup [(EStr "Glare III"); (EStr "Holy III")]))]))])].

(** simulator/game_data/class_skills/healer/sch.py lines 182-185: dissipation *)
Definition sch_m9 : pmethod := mkMethod "dissipation" []
  [SRet (ECall "Skill" [] [("name", (EStr "Dissipation")); ("is_GCD", (EBool false)); ("timing_spec", (ESelf "instant_timing_spec"))])].

(** simulator/game_data/class_skills/healer/sch.py lines 188-191: aetherflow *)
Definition sch_m10 : pmethod := mkMethod "aetherflow" []
  [SRet (ECall "Skill" [] [("name", (EStr "Aetherflow")); ("is_GCD", (EBool false)); ("timing_spec", (ESelf "instant_timing_spec"))])].

(** simulator/game_data/class_skills/healer/sch.py lines 194-204: concitation *)
Definition sch_m11 : pmethod := mkMethod "concitation" []
  [SIf (ELev OLt K96) [SRet ENone] []; SAsg "name" (EStr "Concitation"); SRet (ECall "Skill" [] [("name", (EVar "name")); ("is_GCD", (EBool true));
  ("timing_spec", (ECall "TimingSpec" [] [("base_cast_time", (EInt 2000)); ("animation_lock", (EInt 650)); ("application_delay", (EInt 670))]))])].

(** simulator/game_data/class_skills/healer/sch.py lines 207-217: manifestation *)
Definition sch_m12 : pmethod := mkMethod "manifestation" []
  [SIf (ELev OLt K100) [SRet ENone] []; SAsg "name" (EStr "Manifestation"); SRet (ECall "Skill" [] [("name", (EVar "name")); ("is_GCD", (EBool true));
  ("timing_spec", (ECall "TimingSpec" [] [("base_cast_time", (EInt 0)); ("animation_lock", (EInt 650)); ("application_delay", (EInt 670))]))])].

(** simulator/game_data/class_skills/healer/sch.py lines 220-230: accession *)
Definition sch_m13 : pmethod := mkMethod "accession" []
  [SIf (ELev OLt K100) [SRet ENone] []; SAsg "name" (EStr "Accession"); SRet (ECall "Skill" [] [("name", (EVar "name")); ("is_GCD", (EBool true));
  ("timing_spec", (ECall "TimingSpec" [] [("base_cast_time", (EInt 0)); ("animation_lock", (EInt 650)); ("application_delay", (EInt 670))]))])].

(** simulator/game_data/class_skills/healer/sch.py lines 17-19: __init__ after super().__init__ *)
Definition sch_init : list stmt :=
  [SAttr "_job_class" (EStr "SCH")].

(** simulator/game_data/class_skills/healer/sch.py lines 16-230: class SchSkills; the decorated methods in the order of [dir] *)
Definition sch_class : pclass := mkClass [] sch_init
  [sch_m0; sch_m1; sch_m2; sch_m3; sch_m4; sch_m5; sch_m6; sch_m7; sch_m8; sch_m9; sch_m10; sch_m11; sch_m12; sch_m13]
  ["accession"; "add_chain_stratagem"; "aetherflow"; "art_of_war_ii"; "auto"; "baneful_impaction"; "biolysis"; "broil_iv"; "concitation";
  "dissipation"; "energy_drain"; "manifestation"; "ruin_ii"; "swiftcast"]
  []
  sch_data.
