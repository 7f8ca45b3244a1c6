(** * MCH: the shipped skill definitions.

    Generated by tools/gen_game_data.py from
    simulator/game_data/class_skills/ranged/mch.py and simulator/game_data/class_skills/ranged/mch_data.py. *)

From Coq Require Import ZArith List String.
From Verif Require Import Py.
Import ListNotations.
Open Scope string_scope.
Open Scope Z_scope.

(** simulator/game_data/class_skills/ranged/mch_data.py lines 8-58, in dict-literal order *)
Definition mch_data : data_table := [
  ("Flamethrower (dot)", [(90, [("potency", [(V655, (EInt 80))])]); (100, [("potency", [(V70, (EInt 80))])])]);
  ("Gauss Round", [(90, [("potency", [(V655, (EInt 130))])]); (100, [("potency", [(V70, (EInt 130))])])]);
  ("Heat Blast", [(90, [("potency", [(V655, (EInt 200))])]); (100, [("potency", [(V70, (EInt 200))])])]);
  ("Ricochet", [(90, [("potency", [(V655, (EInt 130))])]); (100, [("potency", [(V70, (EInt 130))])])]);
  ("Auto Crossbow", [(90, [("potency", [(V655, (EInt 140))])]); (100, [("potency", [(V70, (EInt 160))])])]);
  ("Heated Split Shot", [(90, [("potency", [(V655, (EInt 200))])]); (100, [("potency", [(V70, (EInt 220))])])]);
  ("Drill", [(90, [("potency", [(V655, (EInt 600))])]); (100, [("potency", [(V70, (EInt 600))])])]);
  ("Heated Slug Shot", [(90, [("potency", [(V655, (EInt 300))]); ("potency_no_combo", [(V655, (EInt 120))])]); (100, [("potency", [(V70, (EInt
  320))]); ("potency_no_combo", [(V70, (EInt 140))])])]);
  ("Heated Clean Shot", [(90, [("potency", [(V655, (EInt 380))]); ("potency_no_combo", [(V655, (EInt 120))])]); (100, [("potency", [(V70, (EInt 400));
  (V71, (EInt 420))]); ("potency_no_combo", [(V70, (EInt 140)); (V71, (EInt 160))])])]);
  ("Bioblaster (dot)", [(90, [("potency", [(V655, (EInt 50))])]); (100, [("potency", [(V70, (EInt 50))])])]);
  ("Bioblaster", [(90, [("potency", [(V655, (EInt 50))])]); (100, [("potency", [(V70, (EInt 50))])])]);
  ("Air Anchor", [(90, [("potency", [(V655, (EInt 600))])]); (100, [("potency", [(V70, (EInt 600))])])]);
  ("Scattergun", [(90, [("potency", [(V655, (EInt 150))])]); (100, [("potency", [(V70, (EInt 160))])])]);
  ("Chain Saw", [(90, [("potency", [(V655, (EInt 600))])]); (100, [("potency", [(V70, (EInt 600))])])]);
  ("Blazing Shot", [(90, [("potency", [(V70, (EInt 220))])]); (100, [("potency", [(V70, (EInt 220)); (V71, (EInt 240))])])]);
  ("Checkmate", [(100, [("potency", [(V70, (EInt 160)); (V71, (EInt 170))])])]);
  ("Double Check", [(100, [("potency", [(V70, (EInt 160)); (V71, (EInt 170))])])]);
  ("Excavator", [(100, [("potency", [(V70, (EInt 600))])])]);
  ("Full Metal Field", [(100, [("potency", [(V70, (EInt 700)); (V705, (EInt 900))])])]);
  ("Arm Punch (pet)", [(90, [("min_potency", [(V655, (EInt 120))]); ("max_potency", [(V655, (EInt 240))])]); (100, [("min_potency", [(V70, (EInt
  120))]); ("max_potency", [(V70, (EInt 240))])])]);
  ("Roller Dash (pet)", [(90, [("min_potency", [(V655, (EInt 240))]); ("max_potency", [(V655, (EInt 480))])]); (100, [("min_potency", [(V70, (EInt
  240))]); ("max_potency", [(V70, (EInt 480))])])]);
  ("Pile Bunker (pet)", [(90, [("min_potency", [(V655, (EInt 340))]); ("max_potency", [(V655, (EInt 680))])]); (100, [("min_potency", [(V70, (EInt
  340))]); ("max_potency", [(V70, (EInt 680))])])]);
  ("Crowned Collider (pet)", [(90, [("min_potency", [(V655, (EInt 390))]); ("max_potency", [(V655, (EInt 780))])]); (100, [("min_potency", [(V70,
  (EInt 390))]); ("max_potency", [(V70, (EInt 780))])])])].

(** simulator/game_data/class_skills/ranged/mch.py lines 32-37: battery *)
Definition mch_m0 : pmethod := mkMethod "battery" []
  [SAsg "name" (EStr "Battery"); SAsg "job_resource_settings" (ECall "JobResourceSettings" [] [("max_value", (EInt 100)); ("skill_allowlist", (ETup
  [(EStr "Automaton Queen")]))]); SRet (ETup [(EVar "name"); (EVar "job_resource_settings")])].

(** simulator/game_data/class_skills/ranged/mch.py lines 40-45: gcd *)
Definition mch_m1 : pmethod := mkMethod "gcd" []
  [SAsg "name" (EStr "GCD"); SAsg "job_resource_settings" (ECall "JobResourceSettings" [] [("max_value", (EInt 6)); ("skill_allowlist", (ETup [(EStr
  "Wildfire (dot)"); (EStr "Detonator")]))]); SRet (ETup [(EVar "name"); (EVar "job_resource_settings")])].

(** simulator/game_data/class_skills/ranged/mch.py lines 47-48: __get_gcd_job_resouce_increase *)
Definition mch_m2 : pmethod := mkMethod "__get_gcd_job_resouce_increase" []
  [SRet (ECall "JobResourceSpec" [] [("name", (EStr "GCD")); ("change", (EPos (EInt 1)))])].

(** simulator/game_data/class_skills/ranged/mch.py lines 50-76: __get_arm_punch_follow_ups *)
Definition mch_m3 : pmethod := mkMethod "__get_arm_punch_follow_ups" []
  [SAsg "name" (EStr "Arm Punch (pet)"); SAsg "min_potency" (EData (EVar "name") (EStr "min_potency")); SAsg "max_potency" (EData (EVar "name") (EStr
  "max_potency")); SAsg "battery_range" (EInt 50); SAsg "slope" (EBin BDiv (EBin BSub (EVar "max_potency") (EVar "min_potency")) (EVar
  "battery_range")); SAsg "follow_ups" (EDict []); SFor ["battery"] false (ECall "range" [(EInt 50); (EInt 110); (EInt 10)] []) [SAsg "skill" (ECall
  "Skill" [] [("name", (EVar "name")); ("status_effect_denylist", (ETup [(EStr "Dragon Sight")])); ("damage_spec", (ECall "DamageSpec" [] [("potency",
  (ECall "int" [(EBin BAdd (EBin BMul (EBin BSub (EVar "battery") (EInt 50)) (EVar "slope")) (EVar "min_potency"))] [])); ("damage_class", (EConst
  "DamageClass.PET")); ("pet_job_mod_override", (EInt 100))]))]); SSet "follow_ups" [(EVar "battery")] (EDict []); SFor ["hit"] false (ECall "range"
  [(EInt 0); (EInt 5)] []) [SAsg "delay" (ECall "int" [(EBin BMul (EBin BAdd (EFlt 11 2) (EBin BMul (EFlt 8 5) (EVar "hit"))) (EInt 1000))] []); SSet
  "follow_ups" [(EVar "battery"); (EVar "hit")] (ECall "FollowUp" [] [("skill", (EVar "skill")); ("delay_after_parent_application", (EVar "delay"));
  ("snapshot_buffs_with_parent", (EBool false)); ("snapshot_debuffs_with_parent", (EBool false))])]]; SRet (EVar "follow_ups")].

(** simulator/game_data/class_skills/ranged/mch.py lines 78-101: __get_roller_dash_follow_up *)
Definition mch_m4 : pmethod := mkMethod "__get_roller_dash_follow_up" []
  [SAsg "name" (EStr "Roller Dash (pet)"); SAsg "min_potency" (EData (EVar "name") (EStr "min_potency")); SAsg "max_potency" (EData (EVar "name")
  (EStr "max_potency")); SAsg "battery_range" (EInt 50); SAsg "slope" (EBin BDiv (EBin BSub (EVar "max_potency") (EVar "min_potency")) (EVar
  "battery_range")); SAsg "follow_up" (EDict []); SFor ["battery"] false (ECall "range" [(EInt 50); (EInt 110); (EInt 10)] []) [SAsg "skill" (ECall
  "Skill" [] [("name", (EVar "name")); ("status_effect_denylist", (ETup [(EStr "Dragon Sight")])); ("damage_spec", (ECall "DamageSpec" [] [("potency",
  (ECall "int" [(EBin BAdd (EBin BMul (EBin BSub (EVar "battery") (EInt 50)) (EVar "slope")) (EVar "min_potency"))] [])); ("damage_class", (EConst
  "DamageClass.PET")); ("pet_job_mod_override", (EInt 100))]))]); SSet "follow_up" [(EVar "battery")] (ECall "FollowUp" [] [("skill", (EVar "skill"));
  ("delay_after_parent_application", (ECall "int" [(EBin BMul (EFlt 11 2) (EInt 1000))] [])); ("snapshot_buffs_with_parent", (EBool false));
  ("snapshot_debuffs_with_parent", (EBool false))])]; SRet (EVar "follow_up")].

(** simulator/game_data/class_skills/ranged/mch.py lines 103-126: __get_pile_bunker_follow_up *)
Definition mch_m5 : pmethod := mkMethod "__get_pile_bunker_follow_up" []
  [SAsg "name" (EStr "Pile Bunker (pet)"); SAsg "min_potency" (EData (EVar "name") (EStr "min_potency")); SAsg "max_potency" (EData (EVar "name")
  (EStr "max_potency")); SAsg "battery_range" (EInt 50); SAsg "slope" (EBin BDiv (EBin BSub (EVar "max_potency") (EVar "min_potency")) (EVar
  "battery_range")); SAsg "follow_up" (EDict []); SFor ["battery"] false (ECall "range" [(EInt 50); (EInt 110); (EInt 10)] []) [SAsg "skill" (ECall
  "Skill" [] [("name", (EVar "name")); ("status_effect_denylist", (ETup [(EStr "Dragon Sight")])); ("damage_spec", (ECall "DamageSpec" [] [("potency",
  (ECall "int" [(EBin BAdd (EBin BMul (EBin BSub (EVar "battery") (EInt 50)) (EVar "slope")) (EVar "min_potency"))] [])); ("damage_class", (EConst
  "DamageClass.PET")); ("pet_job_mod_override", (EInt 100))]))]); SSet "follow_up" [(EVar "battery")] (ECall "FollowUp" [] [("skill", (EVar "skill"));
  ("delay_after_parent_application", (ECall "int" [(EBin BMul (EBin BAdd (EFlt 11 2) (EBin BMul (EInt 5) (EFlt 8 5))) (EInt 1000))] []));
  ("snapshot_buffs_with_parent", (EBool false)); ("snapshot_debuffs_with_parent", (EBool false))])]; SRet (EVar "follow_up")].

(** simulator/game_data/class_skills/ranged/mch.py lines 128-151: __get_crowned_collider_follow_up *)
Definition mch_m6 : pmethod := mkMethod "__get_crowned_collider_follow_up" []
  [SAsg "name" (EStr "Crowned Collider (pet)"); SAsg "min_potency" (EData (EVar "name") (EStr "min_potency")); SAsg "max_potency" (EData (EVar "name")
  (EStr "max_potency")); SAsg "battery_range" (EInt 50); SAsg "slope" (EBin BDiv (EBin BSub (EVar "max_potency") (EVar "min_potency")) (EVar
  "battery_range")); SAsg "follow_up" (EDict []); SFor ["battery"] false (ECall "range" [(EInt 50); (EInt 110); (EInt 10)] []) [SAsg "skill" (ECall
  "Skill" [] [("name", (EVar "name")); ("status_effect_denylist", (ETup [(EStr "Dragon Sight")])); ("damage_spec", (ECall "DamageSpec" [] [("potency",
  (ECall "int" [(EBin BAdd (EBin BMul (EBin BSub (EVar "battery") (EInt 50)) (EVar "slope")) (EVar "min_potency"))] [])); ("damage_class", (EConst
  "DamageClass.PET")); ("pet_job_mod_override", (EInt 100))]))]); SSet "follow_up" [(EVar "battery")] (ECall "FollowUp" [] [("skill", (EVar "skill"));
  ("delay_after_parent_application", (ECall "int" [(EBin BMul (EBin BAdd (EBin BAdd (EFlt 11 2) (EBin BMul (EInt 5) (EFlt 8 5))) (EInt 2)) (EInt
  1000))] [])); ("snapshot_buffs_with_parent", (EBool false)); ("snapshot_debuffs_with_parent", (EBool false))])]; SRet (EVar "follow_up")].

(** simulator/game_data/class_skills/ranged/mch.py lines 153-172: __get_flamethrower_follow_ups *)
Definition mch_m7 : pmethod := mkMethod "__get_flamethrower_follow_ups" []
  [SAsg "name" (EStr "Flamethrower (dot)"); SAsg "flamethrower_dot" (ECall "Skill" [] [("name", (EVar "name")); ("damage_spec", (ECall "DamageSpec" []
  [("potency", (EPot (EVar "name"))); ("damage_class", (EConst "DamageClass.PHYSICAL_DOT"))]))]); SAsg "follow_ups" (EDict []); SFor ["i"] false
  (ECall "range" [(EInt 0); (EInt 11)] []) [SSet "follow_ups" [(EVar "i")] (ECall "FollowUp" [] [("skill", (EVar "flamethrower_dot"));
  ("delay_after_parent_application", (EInt 0)); ("dot_duration", (EBin BMul (EVar "i") (EInt 1000))); ("snapshot_buffs_with_parent", (EBool true));
  ("snapshot_debuffs_with_parent", (EBool true)); ("primary_target_only", (EBool false))])]; SRet (EVar "follow_ups")].

(** simulator/game_data/class_skills/ranged/mch.py lines 174-183: __get_wildfire_damage_spec *)
Definition mch_m8 : pmethod := mkMethod "__get_wildfire_damage_spec" []
  [SAsg "wildfire_damage_spec" (EDict []); SFor ["i"] false (ECall "range" [(EInt 0); (EInt 7)] []) [SSet "wildfire_damage_spec" [(EFmt [(EVar "i");
  (EStr " GCD")])] (ECall "DamageSpec" [] [("potency", (EBin BMul (EVar "i") (EInt 240))); ("guaranteed_crit", (EConst "ForcedCritOrDH.FORCE_NO"));
  ("guaranteed_dh", (EConst "ForcedCritOrDH.FORCE_NO"))])]; SSet "wildfire_damage_spec" [(EConst "SimConsts.DEFAULT_CONDITION")] (ECall "DamageSpec"
  [] [("potency", (EInt 0))]); SRet (EVar "wildfire_damage_spec")].

(** simulator/game_data/class_skills/ranged/mch.py lines 186-195: auto *)
Definition mch_m9 : pmethod := mkMethod "auto" []
  [SAsg "name" (EStr "Shot"); SRet (ECall "Skill" [] [("name", (EVar "name")); ("is_GCD", (EBool false)); ("timing_spec", (ESelf "shot_timing_spec"));
  ("damage_spec", (ECall "DamageSpec" [] [("potency", (EInt 80)); ("damage_class", (EConst "DamageClass.AUTO")); ("trait_damage_mult_override", (EInt
  1))]))])].

(** simulator/game_data/class_skills/ranged/mch.py lines 198-207: gauss_round *)
Definition mch_m10 : pmethod := mkMethod "gauss_round" []
  [SAsg "name" (EStr "Gauss Round"); SRet (ECall "Skill" [] [("name", (EVar "name")); ("is_GCD", (EBool false)); ("damage_spec", (ECall "DamageSpec"
  [] [("potency", (EPot (EVar "name")))])); ("timing_spec", (ECall "TimingSpec" [] [("base_cast_time", (EInt 0)); ("animation_lock", (EInt 650));
  ("application_delay", (EInt 800))]))])].

(** simulator/game_data/class_skills/ranged/mch.py lines 210-239: heat_blast *)
Definition mch_m11 : pmethod := mkMethod "heat_blast" []
  [SAsg "name" (EStr "Heat Blast"); SRet (ECall "Skill" [] [("name", (EVar "name")); ("is_GCD", (EBool true)); ("damage_spec", (EDict [((EConst
  "SimConsts.DEFAULT_CONDITION"), (ECall "DamageSpec" [] [("potency", (EPot (EVar "name")))])); ((EStr "Reassemble"), (ECall "DamageSpec" []
  [("potency", (EPot (EVar "name"))); ("guaranteed_crit", (EConst "ForcedCritOrDH.FORCE_YES")); ("guaranteed_dh", (EConst
  "ForcedCritOrDH.FORCE_YES"))])); ((EStr "Overheated"), (ECall "DamageSpec" [] [("potency", (EBin BAdd (EPot (EVar "name")) (ESelf
  "OVERHEATED_BONUS_POTENCY")))])); ((EStr "Overheated, Reassemble"), (ECall "DamageSpec" [] [("potency", (EBin BAdd (EPot (EVar "name")) (ESelf
  "OVERHEATED_BONUS_POTENCY"))); ("guaranteed_crit", (EConst "ForcedCritOrDH.FORCE_YES")); ("guaranteed_dh", (EConst
  "ForcedCritOrDH.FORCE_YES"))]))])); ("timing_spec", (ECall "TimingSpec" [] [("base_cast_time", (EInt 0)); ("gcd_base_recast_time", (EInt 1500));
  ("application_delay", (EInt 620))])); ("job_resource_spec", (ETup [(EMeth "__get_gcd_job_resouce_increase" [] [])]))])].

(** simulator/game_data/class_skills/ranged/mch.py lines 242-269: wildfire *)
Definition mch_m12 : pmethod := mkMethod "wildfire" []
  [SAsg "name" (EStr "Wildfire (dot)"); SAsg "wildfire_skill" (ECall "Skill" [] [("name", (EVar "name")); ("is_GCD", (EBool false));
  ("job_resources_snapshot", (EBool false)); ("damage_spec", (EMeth "__get_wildfire_damage_spec" [] [])); ("job_resource_spec", (ETup [(ECall
  "JobResourceSpec" [] [("name", (EStr "GCD")); ("change", (ENeg (EConst "math.inf")))])]))]); SAsg "wildfire_follow_up" (ECall "FollowUp" []
  [("skill", (EVar "wildfire_skill")); ("snapshot_buffs_with_parent", (EBool true)); ("snapshot_debuffs_with_parent", (EBool true));
  ("delay_after_parent_application", (EBin BMul (EInt 10) (EInt 1000)))]); SAsg "name" (EStr "Wildfire"); SRet (ECall "Skill" [] [("name", (EVar
  "name")); ("is_GCD", (EBool false)); ("timing_spec", (ECall "TimingSpec" [] [("base_cast_time", (EInt 0)); ("animation_lock", (EInt 650));
  ("application_delay", (EInt 670))])); ("follow_up_skills", (EDict [((EConst "SimConsts.DEFAULT_CONDITION"), (ETup [(EVar "wildfire_follow_up")]));
  ((EStr "Manual"), (ECall "tuple" [] []))])); ("job_resource_spec", (ETup [(ECall "JobResourceSpec" [] [("name", (EStr "GCD")); ("change", (ENeg
  (EConst "math.inf")))])]))])].

(** simulator/game_data/class_skills/ranged/mch.py lines 272-282: detonator *)
Definition mch_m13 : pmethod := mkMethod "detonator" []
  [SAsg "name" (EStr "Detonator"); SRet (ECall "Skill" [] [("name", (EVar "name")); ("is_GCD", (EBool false)); ("damage_spec", (EMeth
  "__get_wildfire_damage_spec" [] [])); ("timing_spec", (ECall "TimingSpec" [] [("base_cast_time", (EInt 0)); ("animation_lock", (EInt 650));
  ("application_delay", (EInt 670))])); ("job_resource_spec", (ETup [(ECall "JobResourceSpec" [] [("name", (EStr "GCD")); ("change", (ENeg (EConst
  "math.inf")))])]))])].

(** simulator/game_data/class_skills/ranged/mch.py lines 285-300: ricochet *)
Definition mch_m14 : pmethod := mkMethod "ricochet" []
  [SAsg "name" (EStr "Ricochet"); SRet (ECall "Skill" [] [("name", (EVar "name")); ("is_GCD", (EBool false)); ("damage_spec", (EDict [((EConst
  "SimConsts.DEFAULT_CONDITION"), (ECall "DamageSpec" [] [("potency", (EPot (EVar "name")))]))])); ("timing_spec", (ECall "TimingSpec" []
  [("base_cast_time", (EInt 0)); ("animation_lock", (EInt 650)); ("application_delay", (EInt 620))])); ("has_aoe", (EBool true)); ("aoe_dropoff",
  (EFlt 1 2))])].

(** simulator/game_data/class_skills/ranged/mch.py lines 303-333: auto_crossbow *)
Definition mch_m15 : pmethod := mkMethod "auto_crossbow" []
  [SAsg "name" (EStr "Auto Crossbow"); SRet (ECall "Skill" [] [("name", (EVar "name")); ("is_GCD", (EBool true)); ("damage_spec", (EDict [((EConst
  "SimConsts.DEFAULT_CONDITION"), (ECall "DamageSpec" [] [("potency", (EPot (EVar "name")))])); ((EStr "Reassemble"), (ECall "DamageSpec" []
  [("potency", (EPot (EVar "name"))); ("guaranteed_crit", (EConst "ForcedCritOrDH.FORCE_YES")); ("guaranteed_dh", (EConst
  "ForcedCritOrDH.FORCE_YES"))])); ((EStr "Overheated"), (ECall "DamageSpec" [] [("potency", (EBin BAdd (EPot (EVar "name")) (ESelf
  "OVERHEATED_BONUS_POTENCY")))])); ((EStr "Overheated, Reassemble"), (ECall "DamageSpec" [] [("potency", (EBin BAdd (EPot (EVar "name")) (ESelf
  "OVERHEATED_BONUS_POTENCY"))); ("guaranteed_crit", (EConst "ForcedCritOrDH.FORCE_YES")); ("guaranteed_dh", (EConst
  "ForcedCritOrDH.FORCE_YES"))]))])); ("timing_spec", (ECall "TimingSpec" [] [("base_cast_time", (EInt 0)); ("gcd_base_recast_time", (EInt 1500));
  ("application_delay", (EInt 890))])); ("job_resource_spec", (ETup [(EMeth "__get_gcd_job_resouce_increase" [] [])])); ("has_aoe", (EBool true))])].

(** simulator/game_data/class_skills/ranged/mch.py lines 336-366: heated_split_shot *)
Definition mch_m16 : pmethod := mkMethod "heated_split_shot" []
  [SAsg "name" (EStr "Heated Split Shot"); SRet (ECall "Skill" [] [("name", (EVar "name")); ("is_GCD", (EBool true)); ("damage_spec", (EDict [((EConst
  "SimConsts.DEFAULT_CONDITION"), (ECall "DamageSpec" [] [("potency", (EPot (EVar "name")))])); ((EStr "Reassemble"), (ECall "DamageSpec" []
  [("potency", (EPot (EVar "name"))); ("guaranteed_crit", (EConst "ForcedCritOrDH.FORCE_YES")); ("guaranteed_dh", (EConst
  "ForcedCritOrDH.FORCE_YES"))])); ((EStr "Overheated"), (ECall "DamageSpec" [] [("potency", (EBin BAdd (EPot (EVar "name")) (ESelf
  "OVERHEATED_BONUS_POTENCY")))])); ((EStr "Overheated, Reassemble"), (ECall "DamageSpec" [] [("potency", (EBin BAdd (EPot (EVar "name")) (ESelf
  "OVERHEATED_BONUS_POTENCY"))); ("guaranteed_crit", (EConst "ForcedCritOrDH.FORCE_YES")); ("guaranteed_dh", (EConst
  "ForcedCritOrDH.FORCE_YES"))]))])); ("timing_spec", (ECall "TimingSpec" [] [("base_cast_time", (EInt 0)); ("animation_lock", (EInt 650));
  ("application_delay", (EInt 800))])); ("combo_spec", (ETup [(ECall "ComboSpec" [] [])])); ("job_resource_spec", (ETup [(EMeth
  "__get_gcd_job_resouce_increase" [] [])]))])].

(** simulator/game_data/class_skills/ranged/mch.py lines 369-398: drill *)
Definition mch_m17 : pmethod := mkMethod "drill" []
  [SAsg "name" (EStr "Drill"); SRet (ECall "Skill" [] [("name", (EVar "name")); ("is_GCD", (EBool true)); ("damage_spec", (EDict [((EConst
  "SimConsts.DEFAULT_CONDITION"), (ECall "DamageSpec" [] [("potency", (EPot (EVar "name")))])); ((EStr "Reassemble"), (ECall "DamageSpec" []
  [("potency", (EPot (EVar "name"))); ("guaranteed_crit", (EConst "ForcedCritOrDH.FORCE_YES")); ("guaranteed_dh", (EConst
  "ForcedCritOrDH.FORCE_YES"))])); ((EStr "Overheated"), (ECall "DamageSpec" [] [("potency", (EBin BAdd (EPot (EVar "name")) (ESelf
  "OVERHEATED_BONUS_POTENCY")))])); ((EStr "Overheated, Reassemble"), (ECall "DamageSpec" [] [("potency", (EBin BAdd (EPot (EVar "name")) (ESelf
  "OVERHEATED_BONUS_POTENCY"))); ("guaranteed_crit", (EConst "ForcedCritOrDH.FORCE_YES")); ("guaranteed_dh", (EConst
  "ForcedCritOrDH.FORCE_YES"))]))])); ("timing_spec", (ECall "TimingSpec" [] [("base_cast_time", (EInt 0)); ("animation_lock", (EInt 650));
  ("application_delay", (EInt 1150))])); ("job_resource_spec", (ETup [(EMeth "__get_gcd_job_resouce_increase" [] [])]))])].

(** simulator/game_data/class_skills/ranged/mch.py lines 401-449: heated_slug_shot *)
Definition mch_m18 : pmethod := mkMethod "heated_slug_shot" []
  [SAsg "name" (EStr "Heated Slug Shot"); SRet (ECall "Skill" [] [("name", (EVar "name")); ("is_GCD", (EBool true)); ("damage_spec", (EDict [((EConst
  "SimConsts.DEFAULT_CONDITION"), (ECall "DamageSpec" [] [("potency", (EPot (EVar "name")))])); ((EStr "Reassemble"), (ECall "DamageSpec" []
  [("potency", (EPot (EVar "name"))); ("guaranteed_crit", (EConst "ForcedCritOrDH.FORCE_YES")); ("guaranteed_dh", (EConst
  "ForcedCritOrDH.FORCE_YES"))])); ((EStr "No Combo"), (ECall "DamageSpec" [] [("potency", (EPotNC (EVar "name")))])); ((EStr "No Combo, Reassemble"),
  (ECall "DamageSpec" [] [("potency", (EPotNC (EVar "name"))); ("guaranteed_crit", (EConst "ForcedCritOrDH.FORCE_YES")); ("guaranteed_dh", (EConst
  "ForcedCritOrDH.FORCE_YES"))])); ((EStr "Overheated"), (ECall "DamageSpec" [] [("potency", (EBin BAdd (EPot (EVar "name")) (ESelf
  "OVERHEATED_BONUS_POTENCY")))])); ((EStr "Overheated, Reassemble"), (ECall "DamageSpec" [] [("potency", (EBin BAdd (EPot (EVar "name")) (ESelf
  "OVERHEATED_BONUS_POTENCY"))); ("guaranteed_crit", (EConst "ForcedCritOrDH.FORCE_YES")); ("guaranteed_dh", (EConst "ForcedCritOrDH.FORCE_YES"))]));
  ((EStr "No Combo, Overheated"), (ECall "DamageSpec" [] [("potency", (EBin BAdd (EPotNC (EVar "name")) (ESelf "OVERHEATED_BONUS_POTENCY")))]));
  ((EStr "No Combo, Overheated, Reassemble"), (ECall "DamageSpec" [] [("potency", (EBin BAdd (EPotNC (EVar "name")) (ESelf
  "OVERHEATED_BONUS_POTENCY"))); ("guaranteed_crit", (EConst "ForcedCritOrDH.FORCE_YES")); ("guaranteed_dh", (EConst
  "ForcedCritOrDH.FORCE_YES"))]))])); ("timing_spec", (ECall "TimingSpec" [] [("base_cast_time", (EInt 0)); ("animation_lock", (EInt 650));
  ("application_delay", (EInt 800))])); ("combo_spec", (ETup [(ECall "ComboSpec" [] [("combo_actions", (ETup [(EStr "Heated Split Shot")]))])]));
  ("job_resource_spec", (ETup [(EMeth "__get_gcd_job_resouce_increase" [] [])]))])].

(** simulator/game_data/class_skills/ranged/mch.py lines 452-503: heated_clean_shot *)
Definition mch_m19 : pmethod := mkMethod "heated_clean_shot" []
  [SAsg "name" (EStr "Heated Clean Shot"); SRet (ECall "Skill" [] [("name", (EVar "name")); ("is_GCD", (EBool true)); ("damage_spec", (EDict [((EConst
  "SimConsts.DEFAULT_CONDITION"), (ECall "DamageSpec" [] [("potency", (EPot (EVar "name")))])); ((EStr "Reassemble"), (ECall "DamageSpec" []
  [("potency", (EPot (EVar "name"))); ("guaranteed_crit", (EConst "ForcedCritOrDH.FORCE_YES")); ("guaranteed_dh", (EConst
  "ForcedCritOrDH.FORCE_YES"))])); ((EStr "No Combo"), (ECall "DamageSpec" [] [("potency", (EPotNC (EVar "name")))])); ((EStr "No Combo, Reassemble"),
  (ECall "DamageSpec" [] [("potency", (EPotNC (EVar "name"))); ("guaranteed_crit", (EConst "ForcedCritOrDH.FORCE_YES")); ("guaranteed_dh", (EConst
  "ForcedCritOrDH.FORCE_YES"))])); ((EStr "Overheated"), (ECall "DamageSpec" [] [("potency", (EBin BAdd (EPot (EVar "name")) (ESelf
  "OVERHEATED_BONUS_POTENCY")))])); ((EStr "Overheated, Reassemble"), (ECall "DamageSpec" [] [("potency", (EBin BAdd (EPot (EVar "name")) (ESelf
  "OVERHEATED_BONUS_POTENCY"))); ("guaranteed_crit", (EConst "ForcedCritOrDH.FORCE_YES")); ("guaranteed_dh", (EConst "ForcedCritOrDH.FORCE_YES"))]));
  ((EStr "No Combo, Overheated"), (ECall "DamageSpec" [] [("potency", (EBin BAdd (EPotNC (EVar "name")) (ESelf "OVERHEATED_BONUS_POTENCY")))]));
  ((EStr "No Combo, Overheated, Reassemble"), (ECall "DamageSpec" [] [("potency", (EBin BAdd (EPotNC (EVar "name")) (ESelf
  "OVERHEATED_BONUS_POTENCY"))); ("guaranteed_crit", (EConst "ForcedCritOrDH.FORCE_YES")); ("guaranteed_dh", (EConst
  "ForcedCritOrDH.FORCE_YES"))]))])); ("timing_spec", (ECall "TimingSpec" [] [("base_cast_time", (EInt 0)); ("animation_lock", (EInt 650));
  ("application_delay", (EInt 800))])); ("combo_spec", (ETup [(ECall "ComboSpec" [] [("combo_actions", (ETup [(EStr "Heated Slug Shot")]))])]));
  ("job_resource_spec", (ETup [(ECall "JobResourceSpec" [] [("name", (EStr "Battery")); ("change", (EPos (EInt 10)))]); (EMeth
  "__get_gcd_job_resouce_increase" [] [])]))])].

(** simulator/game_data/class_skills/ranged/mch.py lines 506-537: blazing_shot *)
Definition mch_m20 : pmethod := mkMethod "blazing_shot" []
  [SIf (EVer OLt V70) [SRet ENone] []; SAsg "name" (EStr "Blazing Shot"); SRet (ECall "Skill" [] [("name", (EVar "name")); ("is_GCD", (EBool true));
  ("damage_spec", (EDict [((EConst "SimConsts.DEFAULT_CONDITION"), (ECall "DamageSpec" [] [("potency", (EPot (EVar "name")))])); ((EStr "Reassemble"),
  (ECall "DamageSpec" [] [("potency", (EPot (EVar "name"))); ("guaranteed_crit", (EConst "ForcedCritOrDH.FORCE_YES")); ("guaranteed_dh", (EConst
  "ForcedCritOrDH.FORCE_YES"))])); ((EStr "Overheated"), (ECall "DamageSpec" [] [("potency", (EBin BAdd (EPot (EVar "name")) (ESelf
  "OVERHEATED_BONUS_POTENCY")))])); ((EStr "Overheated, Reassemble"), (ECall "DamageSpec" [] [("potency", (EBin BAdd (EPot (EVar "name")) (ESelf
  "OVERHEATED_BONUS_POTENCY"))); ("guaranteed_crit", (EConst "ForcedCritOrDH.FORCE_YES")); ("guaranteed_dh", (EConst
  "ForcedCritOrDH.FORCE_YES"))]))])); ("timing_spec", (ECall "TimingSpec" [] [("base_cast_time", (EInt 0)); ("animation_lock", (EInt 650));
  ("application_delay", (EInt 850))])); ("job_resource_spec", (ETup [(EMeth "__get_gcd_job_resouce_increase" [] [])]))])].

(** simulator/game_data/class_skills/ranged/mch.py lines 540-589: bioblaster *)
Definition mch_m21 : pmethod := mkMethod "bioblaster" []
  [SAsg "name" (EStr "Bioblaster (dot)"); SAsg "bioblaster_dot" (ECall "Skill" [] [("name", (EVar "name")); ("is_GCD", (EBool false)); ("damage_spec",
  (ECall "DamageSpec" [] [("potency", (EPot (EVar "name"))); ("damage_class", (EConst "DamageClass.PHYSICAL_DOT"))]))]); SAsg "bioblaster_follow_up"
  (ECall "FollowUp" [] [("skill", (EVar "bioblaster_dot")); ("delay_after_parent_application", (EInt 0)); ("dot_duration", (EBin BMul (EInt 15) (EInt
  1000))); ("snapshot_buffs_with_parent", (EBool true)); ("snapshot_debuffs_with_parent", (EBool true)); ("primary_target_only", (EBool false))]);
  SAsg "name" (EStr "Bioblaster"); SRet (ECall "Skill" [] [("name", (EVar "name")); ("is_GCD", (EBool true)); ("has_aoe", (EBool true));
  ("damage_spec", (EDict [((EConst "SimConsts.DEFAULT_CONDITION"), (ECall "DamageSpec" [] [("potency", (EPot (EVar "name")))])); ((EStr "Reassemble"),
  (ECall "DamageSpec" [] [("potency", (EPot (EVar "name"))); ("guaranteed_crit", (EConst "ForcedCritOrDH.FORCE_YES")); ("guaranteed_dh", (EConst
  "ForcedCritOrDH.FORCE_YES"))])); ((EStr "Overheated"), (ECall "DamageSpec" [] [("potency", (EBin BAdd (EPot (EVar "name")) (ESelf
  "OVERHEATED_BONUS_POTENCY")))])); ((EStr "Overheated, Reassemble"), (ECall "DamageSpec" [] [("potency", (EBin BAdd (EPot (EVar "name")) (ESelf
  "OVERHEATED_BONUS_POTENCY"))); ("guaranteed_crit", (EConst "ForcedCritOrDH.FORCE_YES")); ("guaranteed_dh", (EConst
  "ForcedCritOrDH.FORCE_YES"))]))])); ("timing_spec", (ECall "TimingSpec" [] [("base_cast_time", (EInt 0)); ("animation_lock", (EInt 650));
  ("application_delay", (EInt 970))])); ("follow_up_skills", (ETup [(EVar "bioblaster_follow_up")])); ("job_resource_spec", (ETup [(EMeth
  "__get_gcd_job_resouce_increase" [] [])]))])].

(** simulator/game_data/class_skills/ranged/mch.py lines 592-618: flamethrower *)
Definition mch_m22 : pmethod := mkMethod "flamethrower" []
  [SAsg "flamethrower_follow_ups" (EMeth "__get_flamethrower_follow_ups" [] []); SAsg "flamethrower_follow_up_dict" (EDict []); SAsg
  "flamethrower_timing_specs_dict" (EDict []); SFor ["i"] false (ECall "range" [(EInt 0); (EInt 11)] []) [SSet "flamethrower_follow_up_dict" [(EFmt
  [(EVar "i"); (EStr "s")])] (ETup [(EIdx (EVar "flamethrower_follow_ups") (EVar "i"))]); SSet "flamethrower_timing_specs_dict" [(EFmt [(EVar "i");
  (EStr "s")])] (ECall "TimingSpec" [] [("base_cast_time", (EBin BMul (EVar "i") (EInt 1000))); ("gcd_base_recast_time", (EBin BMul (EVar "i") (EInt
  1000))); ("application_delay", (EInt 890))])]; SSet "flamethrower_follow_up_dict" [(EConst "SimConsts.DEFAULT_CONDITION")] (ETup [(EIdx (EVar
  "flamethrower_follow_ups") (EInt 0))]); SSet "flamethrower_timing_specs_dict" [(EConst "SimConsts.DEFAULT_CONDITION")] (ECall "TimingSpec" []
  [("base_cast_time", (EInt 0)); ("gcd_base_recast_time", (EInt 0)); ("application_delay", (EInt 890))]); SAsg "name" (EStr "Flamethrower"); SRet
  (ECall "Skill" [] [("name", (EVar "name")); ("timing_spec", (EVar "flamethrower_timing_specs_dict")); ("follow_up_skills", (EVar
  "flamethrower_follow_up_dict"))])].

(** simulator/game_data/class_skills/ranged/mch.py lines 621-653: air_anchor *)
Definition mch_m23 : pmethod := mkMethod "air_anchor" []
  [SAsg "name" (EStr "Air Anchor"); SRet (ECall "Skill" [] [("name", (EVar "name")); ("is_GCD", (EBool true)); ("damage_spec", (EDict [((EConst
  "SimConsts.DEFAULT_CONDITION"), (ECall "DamageSpec" [] [("potency", (EPot (EVar "name")))])); ((EStr "Reassemble"), (ECall "DamageSpec" []
  [("potency", (EPot (EVar "name"))); ("guaranteed_crit", (EConst "ForcedCritOrDH.FORCE_YES")); ("guaranteed_dh", (EConst
  "ForcedCritOrDH.FORCE_YES"))])); ((EStr "Overheated"), (ECall "DamageSpec" [] [("potency", (EBin BAdd (EPot (EVar "name")) (ESelf
  "OVERHEATED_BONUS_POTENCY")))])); ((EStr "Overheated, Reassemble"), (ECall "DamageSpec" [] [("potency", (EBin BAdd (EPot (EVar "name")) (ESelf
  "OVERHEATED_BONUS_POTENCY"))); ("guaranteed_crit", (EConst "ForcedCritOrDH.FORCE_YES")); ("guaranteed_dh", (EConst
  "ForcedCritOrDH.FORCE_YES"))]))])); ("timing_spec", (ECall "TimingSpec" [] [("base_cast_time", (EInt 0)); ("animation_lock", (EInt 650));
  ("application_delay", (EInt 1150))])); ("job_resource_spec", (ETup [(ECall "JobResourceSpec" [] [("name", (EStr "Battery")); ("change", (EPos (EInt
  20)))]); (EMeth "__get_gcd_job_resouce_increase" [] [])]))])].

(** simulator/game_data/class_skills/ranged/mch.py lines 656-714: automaton_queen *)
Definition mch_m24 : pmethod := mkMethod "automaton_queen" []
  [SAsg "name" (EStr "Automaton Queen"); SAsg "arm_punch_follow_ups" (EMeth "__get_arm_punch_follow_ups" [] []); SAsg "roller_dash_follow_up" (EMeth
  "__get_roller_dash_follow_up" [] []); SAsg "pile_bunker_follow_up" (EMeth "__get_pile_bunker_follow_up" [] []); SAsg "crowned_collider_follow_up"
  (EMeth "__get_crowned_collider_follow_up" [] []); SAsg "queen_follow_ups" (EDict []); SSet "queen_follow_ups" [(EStr "Ranged")] (ETup [(EIdx (EVar
  "roller_dash_follow_up") (EInt 100)); (EIdx (EIdx (EVar "arm_punch_follow_ups") (EInt 100)) (EInt 2)); (EIdx (EIdx (EVar "arm_punch_follow_ups")
  (EInt 100)) (EInt 3)); (EIdx (EIdx (EVar "arm_punch_follow_ups") (EInt 100)) (EInt 4)); (EIdx (EVar "pile_bunker_follow_up") (EInt 100)); (EIdx
  (EVar "crowned_collider_follow_up") (EInt 100))]); SSet "queen_follow_ups" [(EStr "Melee")] (ETup [(EIdx (EIdx (EVar "arm_punch_follow_ups") (EInt
  100)) (EInt 0)); (EIdx (EIdx (EVar "arm_punch_follow_ups") (EInt 100)) (EInt 1)); (EIdx (EIdx (EVar "arm_punch_follow_ups") (EInt 100)) (EInt 2));
  (EIdx (EIdx (EVar "arm_punch_follow_ups") (EInt 100)) (EInt 3)); (EIdx (EIdx (EVar "arm_punch_follow_ups") (EInt 100)) (EInt 4)); (EIdx (EVar
  "pile_bunker_follow_up") (EInt 100)); (EIdx (EVar "crowned_collider_follow_up") (EInt 100))]); SFor ["battery"] false (ECall "range" [(EInt 50);
  (EInt 110); (EInt 10)] []) [SSet "queen_follow_ups" [(EFmt [(EVar "battery"); (EStr " Battery")])] (ETup [(EIdx (EVar "roller_dash_follow_up") (EVar
  "battery")); (EIdx (EIdx (EVar "arm_punch_follow_ups") (EVar "battery")) (EInt 2)); (EIdx (EIdx (EVar "arm_punch_follow_ups") (EVar "battery"))
  (EInt 3)); (EIdx (EIdx (EVar "arm_punch_follow_ups") (EVar "battery")) (EInt 4)); (EIdx (EVar "pile_bunker_follow_up") (EVar "battery")); (EIdx
  (EVar "crowned_collider_follow_up") (EVar "battery"))]); SSet "queen_follow_ups" [(EFmt [(EVar "battery"); (EStr " Battery, Ranged")])] (ETup [(EIdx
  (EVar "roller_dash_follow_up") (EVar "battery")); (EIdx (EIdx (EVar "arm_punch_follow_ups") (EVar "battery")) (EInt 2)); (EIdx (EIdx (EVar
  "arm_punch_follow_ups") (EVar "battery")) (EInt 3)); (EIdx (EIdx (EVar "arm_punch_follow_ups") (EVar "battery")) (EInt 4)); (EIdx (EVar
  "pile_bunker_follow_up") (EVar "battery")); (EIdx (EVar "crowned_collider_follow_up") (EVar "battery"))]); SSet "queen_follow_ups" [(EFmt [(EVar
  "battery"); (EStr " Battery, Melee")])] (ETup [(EIdx (EIdx (EVar "arm_punch_follow_ups") (EVar "battery")) (EInt 0)); (EIdx (EIdx (EVar
  "arm_punch_follow_ups") (EVar "battery")) (EInt 1)); (EIdx (EIdx (EVar "arm_punch_follow_ups") (EVar "battery")) (EInt 2)); (EIdx (EIdx (EVar
  "arm_punch_follow_ups") (EVar "battery")) (EInt 3)); (EIdx (EIdx (EVar "arm_punch_follow_ups") (EVar "battery")) (EInt 4)); (EIdx (EVar
  "pile_bunker_follow_up") (EVar "battery")); (EIdx (EVar "crowned_collider_follow_up") (EVar "battery"))])]; SRet (ECall "Skill" [] [("name", (EVar
  "name")); ("is_GCD", (EBool false)); ("timing_spec", (ESelf "instant_timing_spec")); ("follow_up_skills", (EVar "queen_follow_ups"));
  ("job_resource_spec", (ETup [(ECall "JobResourceSpec" [] [("name", (EStr "Battery")); ("change", (ENeg (EConst "math.inf")))])]))])].

(** simulator/game_data/class_skills/ranged/mch.py lines 717-737: scattergun *)
Definition mch_m25 : pmethod := mkMethod "scattergun" []
  [SAsg "name" (EStr "Scattergun"); SRet (ECall "Skill" [] [("name", (EVar "name")); ("is_GCD", (EBool true)); ("has_aoe", (EBool true));
  ("damage_spec", (EDict [((EConst "SimConsts.DEFAULT_CONDITION"), (ECall "DamageSpec" [] [("potency", (EPot (EVar "name")))])); ((EStr "Reassemble"),
  (ECall "DamageSpec" [] [("potency", (EPot (EVar "name"))); ("guaranteed_crit", (EConst "ForcedCritOrDH.FORCE_YES")); ("guaranteed_dh", (EConst
  "ForcedCritOrDH.FORCE_YES"))]))])); ("timing_spec", (ECall "TimingSpec" [] [("base_cast_time", (EInt 0)); ("animation_lock", (EInt 650));
  ("application_delay", (EInt 1150))])); ("job_resource_spec", (ETup [(EMeth "__get_gcd_job_resouce_increase" [] [])]))])].

(** simulator/game_data/class_skills/ranged/mch.py lines 740-764: chain_saw *)
Definition mch_m26 : pmethod := mkMethod "chain_saw" []
  [SAsg "name" (EStr "Chain Saw"); SRet (ECall "Skill" [] [("name", (EVar "name")); ("is_GCD", (EBool true)); ("damage_spec", (EDict [((EConst
  "SimConsts.DEFAULT_CONDITION"), (ECall "DamageSpec" [] [("potency", (EPot (EVar "name")))])); ((EStr "Reassemble"), (ECall "DamageSpec" []
  [("potency", (EPot (EVar "name"))); ("guaranteed_crit", (EConst "ForcedCritOrDH.FORCE_YES")); ("guaranteed_dh", (EConst
  "ForcedCritOrDH.FORCE_YES"))]))])); ("timing_spec", (ECall "TimingSpec" [] [("base_cast_time", (EInt 0)); ("animation_lock", (EInt 650));
  ("application_delay", (EInt 1030))])); ("job_resource_spec", (ETup [(ECall "JobResourceSpec" [] [("name", (EStr "Battery")); ("change", (EPos (EInt
  20)))]); (EMeth "__get_gcd_job_resouce_increase" [] [])])); ("has_aoe", (EBool true)); ("aoe_dropoff", (EFlt 13 20))])].

(** simulator/game_data/class_skills/ranged/mch.py lines 767-792: reassemble *)
Definition mch_m27 : pmethod := mkMethod "reassemble" []
  [SAsg "name" (EStr "Reassemble"); SRet (ECall "Skill" [] [("name", (EVar "name")); ("is_GCD", (EBool false)); ("timing_spec", (ESelf
  "instant_timing_spec")); ("buff_spec", (ECall "StatusEffectSpec" [] [("add_to_skill_modifier_condition", (EBool true)); ("num_uses", (EInt 1));
  ("duration", (EBin BMul (EInt 5) (EInt 1000))); ("skill_allowlist", (ETup [(EStr "Heat Blast"); (EStr "Auto Crossbow"); (EStr "Heated Split Shot");
  (EStr "Drill"); (EStr "Heated Slug Shot"); (EStr "Heated Clean Shot"); (EStr "Bioblaster"); (EStr "Air Anchor"); (EStr "Scattergun"); (EStr
  "Blazing Shot"); (EStr "Excavator"); (EStr "Chain Saw")]))]))])].

(** simulator/game_data/class_skills/ranged/mch.py lines 795-826: hypercharge *)
Definition mch_m28 : pmethod := mkMethod "hypercharge" []
  [SAsg "name" (EStr "Overheated"); SAsg "overheated_buff" (ECall "Skill" [] [("name", (EVar "name")); ("is_GCD", (EBool false)); ("buff_spec", (ECall
  "StatusEffectSpec" [] [("add_to_skill_modifier_condition", (EBool true)); ("num_uses", (EInt 5)); ("duration", (EBin BMul (EInt 10) (EInt 1000)));
  ("skill_allowlist", (ETup [(EStr "Heat Blast"); (EStr "Auto Crossbow"); (EStr "Heated Split Shot"); (EStr "Drill"); (EStr "Heated Slug Shot"); (EStr
  "Heated Clean Shot"); (EStr "Bioblaster"); (EStr "Air Anchor"); (EStr "Blazing Shot")]))]))]); SAsg "name" (EStr "Hypercharge"); SRet (ECall "Skill"
  [] [("name", (EVar "name")); ("is_GCD", (EBool false)); ("timing_spec", (ESelf "instant_timing_spec")); ("follow_up_skills", (ETup [(ECall
  "FollowUp" [] [("skill", (EVar "overheated_buff")); ("delay_after_parent_application", (EInt 0))])]))])].

(** simulator/game_data/class_skills/ranged/mch.py lines 829-846: checkmate *)
Definition mch_m29 : pmethod := mkMethod "checkmate" []
  [SIf (EOr (EVer OLt V70) (ELev OLt K92)) [SRet ENone] []; SAsg "name" (EStr "Checkmate"); SRet (ECall "Skill" [] [("name", (EVar "name"));
  ("is_GCD", (EBool false)); ("damage_spec", (EDict [((EConst "SimConsts.DEFAULT_CONDITION"), (ECall "DamageSpec" [] [("potency", (EPot (EVar
  "name")))]))])); ("timing_spec", (ECall "TimingSpec" [] [("base_cast_time", (EInt 0)); ("animation_lock", (EInt 650)); ("application_delay", (EInt
  710))])); ("has_aoe", (EBool true)); ("aoe_dropoff", (EFlt 1 2))])].

(** simulator/game_data/class_skills/ranged/mch.py lines 849-866: double_check *)
Definition mch_m30 : pmethod := mkMethod "double_check" []
  [SIf (EOr (EVer OLt V70) (ELev OLt K92)) [SRet ENone] []; SAsg "name" (EStr "Double Check"); SRet (ECall "Skill" [] [("name", (EVar "name"));
  ("is_GCD", (EBool false)); ("damage_spec", (EDict [((EConst "SimConsts.DEFAULT_CONDITION"), (ECall "DamageSpec" [] [("potency", (EPot (EVar
  "name")))]))])); ("timing_spec", (ECall "TimingSpec" [] [("base_cast_time", (EInt 0)); ("animation_lock", (EInt 650)); ("application_delay", (EInt
  710))])); ("has_aoe", (EBool true)); ("aoe_dropoff", (EFlt 1 2))])].

(** simulator/game_data/class_skills/ranged/mch.py lines 869-895: excavator *)
Definition mch_m31 : pmethod := mkMethod "excavator" []
  [SIf (EOr (EVer OLt V70) (ELev OLt K96)) [SRet ENone] []; SAsg "name" (EStr "Excavator"); SRet (ECall "Skill" [] [("name", (EVar "name"));
  ("is_GCD", (EBool true)); ("damage_spec", (EDict [((EConst "SimConsts.DEFAULT_CONDITION"), (ECall "DamageSpec" [] [("potency", (EPot (EVar
  "name")))])); ((EStr "Reassemble"), (ECall "DamageSpec" [] [("potency", (EPot (EVar "name"))); ("guaranteed_crit", (EConst
  "ForcedCritOrDH.FORCE_YES")); ("guaranteed_dh", (EConst "ForcedCritOrDH.FORCE_YES"))]))])); ("timing_spec", (ECall "TimingSpec" []
  [("base_cast_time", (EInt 0)); ("animation_lock", (EInt 650)); ("application_delay", (EInt 1070))])); ("job_resource_spec", (ETup [(ECall
  "JobResourceSpec" [] [("name", (EStr "Battery")); ("change", (EPos (EInt 20)))]); (EMeth "__get_gcd_job_resouce_increase" [] [])])); ("has_aoe",
  (EBool true)); ("aoe_dropoff", (EFlt 13 20))])].

(** simulator/game_data/class_skills/ranged/mch.py lines 898-918: full_metal_field *)
Definition mch_m32 : pmethod := mkMethod "full_metal_field" []
  [SIf (EOr (EVer OLt V70) (ELev OLt K100)) [SRet ENone] []; SAsg "name" (EStr "Full Metal Field"); SRet (ECall "Skill" [] [("name", (EVar "name"));
  ("is_GCD", (EBool true)); ("damage_spec", (EDict [((EConst "SimConsts.DEFAULT_CONDITION"), (ECall "DamageSpec" [] [("potency", (EPot (EVar
  "name"))); ("guaranteed_crit", (EConst "ForcedCritOrDH.FORCE_YES")); ("guaranteed_dh", (EConst "ForcedCritOrDH.FORCE_YES"))]))])); ("timing_spec",
  (ECall "TimingSpec" [] [("base_cast_time", (EInt 0)); ("animation_lock", (EInt 650)); ("application_delay", (EInt 1030))])); ("job_resource_spec",
  (ETup [(EMeth "__get_gcd_job_resouce_increase" [] [])])); ("has_aoe", (EBool true)); ("aoe_dropoff", (EFlt 1 2))])].

(** simulator/game_data/class_skills/ranged/mch.py lines 925-928: tactician *)
Definition mch_m33 : pmethod := mkMethod "tactician" []
  [SRet (ECall "Skill" [] [("name", (EStr "Tactician")); ("is_GCD", (EBool false)); ("timing_spec", (ESelf "instant_timing_spec"))])].

(** simulator/game_data/class_skills/ranged/mch.py lines 931-934: dismantle *)
Definition mch_m34 : pmethod := mkMethod "dismantle" []
  [SRet (ECall "Skill" [] [("name", (EStr "Dismantle")); ("is_GCD", (EBool false)); ("timing_spec", (ESelf "instant_timing_spec"))])].

(** simulator/game_data/class_skills/ranged/mch.py lines 937-940: barrel_stabilizer *)
Definition mch_m35 : pmethod := mkMethod "barrel_stabilizer" []
  [SRet (ECall "Skill" [] [("name", (EStr "Barrel Stabilizer")); ("is_GCD", (EBool false)); ("timing_spec", (ESelf "instant_timing_spec"))])].

(** simulator/game_data/class_skills/ranged/mch.py lines 27-29: __init__ after super().__init__ *)
Definition mch_init : list stmt :=
  [SAttr "_job_class" (EStr "MCH")].

(** simulator/game_data/class_skills/ranged/mch.py lines 21-940: class MchSkills; the decorated methods in the order of [dir] *)
Definition mch_class : pclass := mkClass [("OVERHEATED_BONUS_POTENCY", (EInt 20))] mch_init
  [mch_m0; mch_m1; mch_m2; mch_m3; mch_m4; mch_m5; mch_m6; mch_m7; mch_m8; mch_m9; mch_m10; mch_m11; mch_m12; mch_m13; mch_m14; mch_m15; mch_m16;
  mch_m17; mch_m18; mch_m19; mch_m20; mch_m21; mch_m22; mch_m23; mch_m24; mch_m25; mch_m26; mch_m27; mch_m28; mch_m29; mch_m30; mch_m31; mch_m32;
  mch_m33; mch_m34; mch_m35]
  ["air_anchor"; "auto"; "auto_crossbow"; "automaton_queen"; "barrel_stabilizer"; "bioblaster"; "blazing_shot"; "chain_saw"; "checkmate"; "detonator";
  "dismantle"; "double_check"; "drill"; "excavator"; "flamethrower"; "full_metal_field"; "gauss_round"; "heat_blast"; "heated_clean_shot";
  "heated_slug_shot"; "heated_split_shot"; "hypercharge"; "reassemble"; "ricochet"; "scattergun"; "tactician"; "wildfire"]
  ["battery"; "gcd"]
  mch_data.
