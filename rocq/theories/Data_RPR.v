(** * RPR: the shipped skill definitions.

    Generated by tools/gen_game_data.py from
    simulator/game_data/class_skills/melee/rpr.py and simulator/game_data/class_skills/melee/rpr_data.py. *)

From Coq Require Import ZArith List String.
From Verif Require Import Py.
Import ListNotations.
Open Scope string_scope.
Open Scope Z_scope.

(** simulator/game_data/class_skills/melee/rpr_data.py lines 8-118, in dict-literal order *)
Definition rpr_data : data_table := [
  ("Enhanced Harpe", [(90, [("duration", [(V655, (ECall "int" [(EBin BMul (EInt 20) (EInt 1000))] []))])]); (100, [("duration", [(V70, (ECall "int"
  [(EBin BMul (EInt 10) (EInt 1000))] []))])])]);
  ("Slice", [(90, [("potency", [(V655, (EInt 320))])]); (100, [("potency", [(V70, (EInt 420))])])]);
  ("Waxing Slice", [(90, [("potency", [(V655, (EInt 400))]); ("potency_no_combo", [(V655, (EInt 160))])]); (100, [("potency", [(V70, (EInt 500))]);
  ("potency_no_combo", [(V70, (EInt 260))])])]);
  ("Shadow of Death", [(90, [("potency", [(V655, (EInt 300))])]); (100, [("potency", [(V70, (EInt 300))])])]);
  ("Harpe", [(90, [("potency", [(V655, (EInt 300))])]); (100, [("potency", [(V70, (EInt 300))])])]);
  ("Spinning Scythe", [(90, [("potency", [(V655, (EInt 140))])]); (100, [("potency", [(V70, (EInt 160))])])]);
  ("Infernal Slice", [(90, [("potency", [(V655, (EInt 500))]); ("potency_no_combo", [(V655, (EInt 180))])]); (100, [("potency", [(V70, (EInt 600))]);
  ("potency_no_combo", [(V70, (EInt 280))])])]);
  ("Whorl of Death", [(90, [("potency", [(V655, (EInt 100))])]); (100, [("potency", [(V70, (EInt 100))])])]);
  ("Nightmare Scythe", [(90, [("potency", [(V655, (EInt 180))]); ("potency_no_combo", [(V655, (EInt 120))])]); (100, [("potency", [(V70, (EInt
  200))]); ("potency_no_combo", [(V70, (EInt 140))])])]);
  ("Blood Stalk", [(90, [("potency", [(V655, (EInt 340))])]); (100, [("potency", [(V70, (EInt 340))])])]);
  ("Grim Swathe", [(90, [("potency", [(V655, (EInt 140))])]); (100, [("potency", [(V70, (EInt 140))])])]);
  ("Soul Slice", [(90, [("potency", [(V655, (EInt 460))])]); (100, [("potency", [(V70, (EInt 460)); (V705, (EInt 520))])])]);
  ("Soul Scythe", [(90, [("potency", [(V655, (EInt 180))])]); (100, [("potency", [(V70, (EInt 180))])])]);
  ("Enhanced Gibbet", [(90, [("allowlist", [(V655, (ETup [(EStr "Gibbet")]))])]); (100, [("allowlist", [(V70, (ETup [(EStr "Gibbet"); (EStr
  "Executioner's Gibbet")]))])])]);
  ("Enhanced Gallows", [(90, [("allowlist", [(V655, (ETup [(EStr "Gallows")]))])]); (100, [("allowlist", [(V70, (ETup [(EStr "Gallows"); (EStr
  "Executioner's Gallows")]))])])]);
  ("Gibbet", [(90, [("potency", [(V655, (EInt 460))]); ("potency_no_pos", [(V655, (EInt 400))]); ("potency_gibbet", [(V655, (EInt 520))]);
  ("potency_no_pos_gibbet", [(V655, (EInt 460))])]); (100, [("potency", [(V70, (EInt 560))]); ("potency_no_pos", [(V70, (EInt 500))]);
  ("potency_gibbet", [(V70, (EInt 620))]); ("potency_no_pos_gibbet", [(V70, (EInt 560))])])]);
  ("Gallows", [(90, [("potency", [(V655, (EInt 460))]); ("potency_no_pos", [(V655, (EInt 400))]); ("potency_gallows", [(V655, (EInt 520))]);
  ("potency_no_pos_gallows", [(V655, (EInt 460))])]); (100, [("potency", [(V70, (EInt 560))]); ("potency_no_pos", [(V70, (EInt 500))]);
  ("potency_gallows", [(V70, (EInt 620))]); ("potency_no_pos_gallows", [(V70, (EInt 560))])])]);
  ("Guillotine", [(90, [("potency", [(V655, (EInt 200))])]); (100, [("potency", [(V70, (EInt 200))])])]);
  ("Unveiled Gibbet", [(90, [("potency", [(V655, (EInt 400))])]); (100, [("potency", [(V70, (EInt 440))])])]);
  ("Unveiled Gallows", [(90, [("potency", [(V655, (EInt 400))])]); (100, [("potency", [(V70, (EInt 440))])])]);
  ("Arcane Circle", [(90, [("duration", [(V655, (ECall "int" [(EBin BMul (EFlt 999 50) (EInt 1000))] []))])]); (100, [("duration", [(V70, (ECall "int"
  [(EBin BMul (EFlt 999 50) (EInt 1000))] []))])])]);
  ("Gluttony", [(90, [("potency", [(V655, (EInt 520))])]); (100, [("potency", [(V70, (EInt 520))])])]);
  ("Void Reaping", [(90, [("potency", [(V655, (EInt 460))]); ("potency_enhanced", [(V655, (EInt 520))])]); (100, [("potency", [(V70, (EInt 500))]);
  ("potency_enhanced", [(V70, (EInt 560))])])]);
  ("Cross Reaping", [(90, [("potency", [(V655, (EInt 460))]); ("potency_enhanced", [(V655, (EInt 520))])]); (100, [("potency", [(V70, (EInt 500))]);
  ("potency_enhanced", [(V70, (EInt 560))])])]);
  ("Grim Reaping", [(90, [("potency", [(V655, (EInt 200))])]); (100, [("potency", [(V70, (EInt 200))])])]);
  ("Harvest Moon", [(90, [("potency", [(V655, (EInt 600))])]); (100, [("potency", [(V70, (EInt 800))])])]);
  ("Lemure's Slice", [(90, [("potency", [(V655, (EInt 240))])]); (100, [("potency", [(V70, (EInt 280))])])]);
  ("Lemure's Scythe", [(90, [("potency", [(V655, (EInt 100))])]); (100, [("potency", [(V70, (EInt 100))])])]);
  ("Plentiful Harvest", [(90, [("base_potency", [(V655, (EInt 720))]); ("potency_increment", [(V655, (EInt 40))])]); (100, [("base_potency", [(V70,
  (EInt 720))]); ("potency_increment", [(V70, (EInt 40))])])]);
  ("Communio", [(90, [("potency", [(V655, (EInt 1100))])]); (100, [("potency", [(V70, (EInt 1100))])])]);
  ("Sacrificium", [(100, [("potency", [(V70, (EInt 530))])])]);
  ("Executioner's Gibbet", [(100, [("potency", [(V70, (EInt 760))]); ("potency_no_pos", [(V70, (EInt 700))]); ("potency_enhanced", [(V70, (EInt
  820))]); ("potency_no_pos_enhanced", [(V70, (EInt 760))])])]);
  ("Executioner's Gallows", [(100, [("potency", [(V70, (EInt 760))]); ("potency_no_pos", [(V70, (EInt 700))]); ("potency_enhanced", [(V70, (EInt
  820))]); ("potency_no_pos_enhanced", [(V70, (EInt 760))])])]);
  ("Executioner's Guillotine", [(100, [("potency", [(V70, (EInt 300))])])]);
  ("Perfectio", [(100, [("potency", [(V70, (EInt 1200)); (V705, (EInt 1300))])])])].

(** simulator/game_data/class_skills/melee/rpr.py lines 22-34: __get_deaths_design_follow_up *)
Definition rpr_m0 : pmethod := mkMethod "__get_deaths_design_follow_up" []
  [SAsg "name" (EStr "Death's Design"); SRet (ECall "FollowUp" [] [("skill", (ECall "Skill" [] [("name", (EVar "name")); ("is_GCD", (EBool false));
  ("debuff_spec", (ECall "StatusEffectSpec" [] [("damage_mult", (EFlt 11 10)); ("duration", (EBin BMul (EInt 30) (EInt 1000))); ("max_duration", (EBin
  BMul (EInt 60) (EInt 1000)))]))])); ("delay_after_parent_application", (EInt 0)); ("primary_target_only", (EBool false))])].

(** simulator/game_data/class_skills/melee/rpr.py lines 36-50: __get_enhanced_harp_follow_up *)
Definition rpr_m1 : pmethod := mkMethod "__get_enhanced_harp_follow_up" []
  [SAsg "name" (EStr "Enhanced Harpe"); SRet (ECall "FollowUp" [] [("skill", (ECall "Skill" [] [("name", (EVar "name")); ("is_GCD", (EBool false));
  ("buff_spec", (ECall "StatusEffectSpec" [] [("add_to_skill_modifier_condition", (EBool true)); ("num_uses", (EInt 1)); ("duration", (EData (EVar
  "name") (EStr "duration"))); ("skill_allowlist", (ETup [(EStr "Harpe")]))]))])); ("delay_after_parent_application", (EInt 0))])].

(** simulator/game_data/class_skills/melee/rpr.py lines 53-62: auto *)
Definition rpr_m2 : pmethod := mkMethod "auto" []
  [SAsg "name" (EStr "Auto"); SRet (ECall "Skill" [] [("name", (EVar "name")); ("is_GCD", (EBool false)); ("timing_spec", (ESelf "auto_timing_spec"));
  ("damage_spec", (ECall "DamageSpec" [] [("potency", (EInt 90)); ("damage_class", (EConst "DamageClass.AUTO")); ("trait_damage_mult_override", (EInt
  1))]))])].

(** simulator/game_data/class_skills/melee/rpr.py lines 65-75: slice *)
Definition rpr_m3 : pmethod := mkMethod "slice" []
  [SAsg "name" (EStr "Slice"); SRet (ECall "Skill" [] [("name", (EVar "name")); ("is_GCD", (EBool true)); ("combo_spec", (ETup [(ECall "ComboSpec" []
  [])])); ("damage_spec", (ECall "DamageSpec" [] [("potency", (EPot (EVar "name")))])); ("timing_spec", (ECall "TimingSpec" [] [("base_cast_time",
  (EInt 0)); ("animation_lock", (EInt 650)); ("application_delay", (EInt 490))]))])].

(** simulator/game_data/class_skills/melee/rpr.py lines 78-95: waxing_slice *)
Definition rpr_m4 : pmethod := mkMethod "waxing_slice" []
  [SAsg "name" (EStr "Waxing Slice"); SRet (ECall "Skill" [] [("name", (EVar "name")); ("is_GCD", (EBool true)); ("combo_spec", (ETup [(ECall
  "ComboSpec" [] [("combo_actions", (ETup [(EStr "Slice")]))])])); ("damage_spec", (EDict [((EConst "SimConsts.DEFAULT_CONDITION"), (ECall
  "DamageSpec" [] [("potency", (EPot (EVar "name")))])); ((EStr "No Combo"), (ECall "DamageSpec" [] [("potency", (EPotNC (EVar "name")))]))]));
  ("timing_spec", (ECall "TimingSpec" [] [("base_cast_time", (EInt 0)); ("animation_lock", (EInt 650)); ("application_delay", (EInt 580))]))])].

(** simulator/game_data/class_skills/melee/rpr.py lines 98-117: shadow_of_death *)
Definition rpr_m5 : pmethod := mkMethod "shadow_of_death" []
  [SAsg "name" (EStr "Shadow of Death"); SAsg "shadow_of_death_damage" (ECall "FollowUp" [] [("skill", (ECall "Skill" [] [("name", (EVar "name"));
  ("damage_spec", (ECall "DamageSpec" [] [("potency", (EPot (EVar "name")))]))])); ("delay_after_parent_application", (EInt 1160))]); SRet (ECall
  "Skill" [] [("name", (EVar "name")); ("is_GCD", (EBool true)); ("timing_spec", (ECall "TimingSpec" [] [("base_cast_time", (EInt 0));
  ("animation_lock", (EInt 650)); ("application_delay", (EInt 0))])); ("follow_up_skills", (ETup [(EVar "shadow_of_death_damage"); (EMeth
  "__get_deaths_design_follow_up" [] [])]))])].

(** simulator/game_data/class_skills/melee/rpr.py lines 120-138: harpe *)
Definition rpr_m6 : pmethod := mkMethod "harpe" []
  [SAsg "name" (EStr "Harpe"); SRet (ECall "Skill" [] [("name", (EVar "name")); ("is_GCD", (EBool true)); ("damage_spec", (ECall "DamageSpec" []
  [("potency", (EPot (EVar "name")))])); ("timing_spec", (EDict [((EConst "SimConsts.DEFAULT_CONDITION"), (ECall "TimingSpec" [] [("base_cast_time",
  (EInt 1300)); ("gcd_base_recast_time", (EInt 2500)); ("application_delay", (EInt 890)); ("affected_by_speed_stat", (EBool false))])); ((EStr
  "Enhanced Harpe"), (ECall "TimingSpec" [] [("base_cast_time", (EInt 0)); ("animation_lock", (EInt 650)); ("application_delay", (EInt 890))]))]))])].

(** simulator/game_data/class_skills/melee/rpr.py lines 141-152: spinning_scythe *)
Definition rpr_m7 : pmethod := mkMethod "spinning_scythe" []
  [SAsg "name" (EStr "Spinning Scythe"); SRet (ECall "Skill" [] [("name", (EVar "name")); ("is_GCD", (EBool true)); ("combo_spec", (ETup [(ECall
  "ComboSpec" [] [])])); ("damage_spec", (ECall "DamageSpec" [] [("potency", (EPot (EVar "name")))])); ("timing_spec", (ECall "TimingSpec" []
  [("base_cast_time", (EInt 0)); ("animation_lock", (EInt 650)); ("application_delay", (EInt 620))])); ("has_aoe", (EBool true))])].

(** simulator/game_data/class_skills/melee/rpr.py lines 155-172: infernal_slice *)
Definition rpr_m8 : pmethod := mkMethod "infernal_slice" []
  [SAsg "name" (EStr "Infernal Slice"); SRet (ECall "Skill" [] [("name", (EVar "name")); ("is_GCD", (EBool true)); ("combo_spec", (ETup [(ECall
  "ComboSpec" [] [("combo_actions", (ETup [(EStr "Waxing Slice")]))])])); ("damage_spec", (EDict [((EConst "SimConsts.DEFAULT_CONDITION"), (ECall
  "DamageSpec" [] [("potency", (EPot (EVar "name")))])); ((EStr "No Combo"), (ECall "DamageSpec" [] [("potency", (EPotNC (EVar "name")))]))]));
  ("timing_spec", (ECall "TimingSpec" [] [("base_cast_time", (EInt 0)); ("animation_lock", (EInt 650)); ("application_delay", (EInt 540))]))])].

(** simulator/game_data/class_skills/melee/rpr.py lines 175-197: whorl_of_death *)
Definition rpr_m9 : pmethod := mkMethod "whorl_of_death" []
  [SAsg "name" (EStr "Whorl of Death"); SAsg "whorl_of_death_damage" (ECall "FollowUp" [] [("skill", (ECall "Skill" [] [("name", (EVar "name"));
  ("damage_spec", (ECall "DamageSpec" [] [("potency", (EPot (EVar "name")))])); ("has_aoe", (EBool true))])); ("delay_after_parent_application", (EInt
  1160)); ("primary_target_only", (EBool false))]); SRet (ECall "Skill" [] [("name", (EVar "name")); ("is_GCD", (EBool true)); ("timing_spec", (ECall
  "TimingSpec" [] [("base_cast_time", (EInt 0)); ("animation_lock", (EInt 650)); ("application_delay", (EInt 0))])); ("follow_up_skills", (ETup [(EVar
  "whorl_of_death_damage"); (EMeth "__get_deaths_design_follow_up" [] [])])); ("has_aoe", (EBool true))])].

(** simulator/game_data/class_skills/melee/rpr.py lines 200-218: nightmare_scythe *)
Definition rpr_m10 : pmethod := mkMethod "nightmare_scythe" []
  [SAsg "name" (EStr "Nightmare Scythe"); SRet (ECall "Skill" [] [("name", (EVar "name")); ("is_GCD", (EBool true)); ("combo_spec", (ETup [(ECall
  "ComboSpec" [] [("combo_actions", (ETup [(EStr "Spinning Scythe")]))])])); ("damage_spec", (EDict [((EConst "SimConsts.DEFAULT_CONDITION"), (ECall
  "DamageSpec" [] [("potency", (EPot (EVar "name")))])); ((EStr "No Combo"), (ECall "DamageSpec" [] [("potency", (EPotNC (EVar "name")))]))]));
  ("timing_spec", (ECall "TimingSpec" [] [("base_cast_time", (EInt 0)); ("animation_lock", (EInt 650)); ("application_delay", (EInt 800))]));
  ("has_aoe", (EBool true))])].

(** simulator/game_data/class_skills/melee/rpr.py lines 221-230: blood_stalk *)
Definition rpr_m11 : pmethod := mkMethod "blood_stalk" []
  [SAsg "name" (EStr "Blood Stalk"); SRet (ECall "Skill" [] [("name", (EVar "name")); ("is_GCD", (EBool false)); ("damage_spec", (ECall "DamageSpec"
  [] [("potency", (EPot (EVar "name")))])); ("timing_spec", (ECall "TimingSpec" [] [("base_cast_time", (EInt 0)); ("animation_lock", (EInt 650));
  ("application_delay", (EInt 890))]))])].

(** simulator/game_data/class_skills/melee/rpr.py lines 233-243: grim_swathe *)
Definition rpr_m12 : pmethod := mkMethod "grim_swathe" []
  [SAsg "name" (EStr "Grim Swathe"); SRet (ECall "Skill" [] [("name", (EVar "name")); ("is_GCD", (EBool false)); ("damage_spec", (ECall "DamageSpec"
  [] [("potency", (EPot (EVar "name")))])); ("timing_spec", (ECall "TimingSpec" [] [("base_cast_time", (EInt 0)); ("animation_lock", (EInt 650));
  ("application_delay", (EInt 580))])); ("has_aoe", (EBool true))])].

(** simulator/game_data/class_skills/melee/rpr.py lines 246-259: soul_slice *)
Definition rpr_m13 : pmethod := mkMethod "soul_slice" []
  [SAsg "name" (EStr "Soul Slice"); SRet (ECall "Skill" [] [("name", (EVar "name")); ("is_GCD", (EBool true)); ("damage_spec", (ECall "DamageSpec" []
  [("potency", (EPot (EVar "name")))])); ("timing_spec", (ECall "TimingSpec" [] [("base_cast_time", (EInt 0)); ("animation_lock", (EInt 650));
  ("application_delay", (EInt 1030)); ("affected_by_haste_buffs", (EBool false)); ("affected_by_speed_stat", (EBool false))]))])].

(** simulator/game_data/class_skills/melee/rpr.py lines 262-276: soul_scythe *)
Definition rpr_m14 : pmethod := mkMethod "soul_scythe" []
  [SAsg "name" (EStr "Soul Scythe"); SRet (ECall "Skill" [] [("name", (EVar "name")); ("is_GCD", (EBool true)); ("damage_spec", (ECall "DamageSpec" []
  [("potency", (EPot (EVar "name")))])); ("timing_spec", (ECall "TimingSpec" [] [("base_cast_time", (EInt 0)); ("animation_lock", (EInt 650));
  ("application_delay", (EInt 670)); ("affected_by_haste_buffs", (EBool false)); ("affected_by_speed_stat", (EBool false))])); ("has_aoe", (EBool
  true))])].

(** simulator/game_data/class_skills/melee/rpr.py lines 278-292: __get_enhanced_gibbet_follow_up *)
Definition rpr_m15 : pmethod := mkMethod "__get_enhanced_gibbet_follow_up" []
  [SAsg "name" (EStr "Enhanced Gibbet"); SRet (ECall "FollowUp" [] [("skill", (ECall "Skill" [] [("name", (EVar "name")); ("is_GCD", (EBool false));
  ("buff_spec", (ECall "StatusEffectSpec" [] [("add_to_skill_modifier_condition", (EBool true)); ("num_uses", (EInt 1)); ("duration", (EBin BMul (EInt
  60) (EInt 1000))); ("skill_allowlist", (EData (EVar "name") (EStr "allowlist")))]))])); ("delay_after_parent_application", (EInt 0))])].

(** simulator/game_data/class_skills/melee/rpr.py lines 294-308: __get_enhanced_gallows_follow_up *)
Definition rpr_m16 : pmethod := mkMethod "__get_enhanced_gallows_follow_up" []
  [SAsg "name" (EStr "Enhanced Gallows"); SRet (ECall "FollowUp" [] [("skill", (ECall "Skill" [] [("name", (EVar "name")); ("is_GCD", (EBool false));
  ("buff_spec", (ECall "StatusEffectSpec" [] [("add_to_skill_modifier_condition", (EBool true)); ("num_uses", (EInt 1)); ("duration", (EBin BMul (EInt
  60) (EInt 1000))); ("skill_allowlist", (EData (EVar "name") (EStr "allowlist")))]))])); ("delay_after_parent_application", (EInt 0))])].

(** simulator/game_data/class_skills/melee/rpr.py lines 311-336: gibbet *)
Definition rpr_m17 : pmethod := mkMethod "gibbet" []
  [SAsg "name" (EStr "Gibbet"); SRet (ECall "Skill" [] [("name", (EVar "name")); ("is_GCD", (EBool true)); ("damage_spec", (EDict [((EConst
  "SimConsts.DEFAULT_CONDITION"), (ECall "DamageSpec" [] [("potency", (EPot (EVar "name")))])); ((EStr "No Positional"), (ECall "DamageSpec" []
  [("potency", (EPotNP (EVar "name")))])); ((EStr "Enhanced Gibbet"), (ECall "DamageSpec" [] [("potency", (EData (EVar "name") (EStr
  "potency_gibbet")))])); ((EStr "Enhanced Gibbet, No Positional"), (ECall "DamageSpec" [] [("potency", (EData (EVar "name") (EStr
  "potency_no_pos_gibbet")))]))])); ("timing_spec", (ECall "TimingSpec" [] [("base_cast_time", (EInt 0)); ("animation_lock", (EInt 650));
  ("application_delay", (EInt 490))])); ("follow_up_skills", (ETup [(EMeth "__get_enhanced_gallows_follow_up" [] [])]))])].

(** simulator/game_data/class_skills/melee/rpr.py lines 339-364: gallows *)
Definition rpr_m18 : pmethod := mkMethod "gallows" []
  [SAsg "name" (EStr "Gallows"); SRet (ECall "Skill" [] [("name", (EVar "name")); ("is_GCD", (EBool true)); ("damage_spec", (EDict [((EConst
  "SimConsts.DEFAULT_CONDITION"), (ECall "DamageSpec" [] [("potency", (EPot (EVar "name")))])); ((EStr "No Positional"), (ECall "DamageSpec" []
  [("potency", (EPotNP (EVar "name")))])); ((EStr "Enhanced Gallows"), (ECall "DamageSpec" [] [("potency", (EData (EVar "name") (EStr
  "potency_gallows")))])); ((EStr "Enhanced Gallows, No Positional"), (ECall "DamageSpec" [] [("potency", (EData (EVar "name") (EStr
  "potency_no_pos_gallows")))]))])); ("timing_spec", (ECall "TimingSpec" [] [("base_cast_time", (EInt 0)); ("animation_lock", (EInt 650));
  ("application_delay", (EInt 490))])); ("follow_up_skills", (ETup [(EMeth "__get_enhanced_gibbet_follow_up" [] [])]))])].

(** simulator/game_data/class_skills/melee/rpr.py lines 367-377: guillotine *)
Definition rpr_m19 : pmethod := mkMethod "guillotine" []
  [SAsg "name" (EStr "Guillotine"); SRet (ECall "Skill" [] [("name", (EVar "name")); ("is_GCD", (EBool true)); ("damage_spec", (ECall "DamageSpec" []
  [("potency", (EPot (EVar "name")))])); ("timing_spec", (ECall "TimingSpec" [] [("base_cast_time", (EInt 0)); ("animation_lock", (EInt 650));
  ("application_delay", (EInt 490))])); ("has_aoe", (EBool true))])].

(** simulator/game_data/class_skills/melee/rpr.py lines 380-389: unveiled_gibbet *)
Definition rpr_m20 : pmethod := mkMethod "unveiled_gibbet" []
  [SAsg "name" (EStr "Unveiled Gibbet"); SRet (ECall "Skill" [] [("name", (EVar "name")); ("is_GCD", (EBool false)); ("damage_spec", (ECall
  "DamageSpec" [] [("potency", (EPot (EVar "name")))])); ("timing_spec", (ECall "TimingSpec" [] [("base_cast_time", (EInt 0)); ("animation_lock",
  (EInt 650)); ("application_delay", (EInt 540))]))])].

(** simulator/game_data/class_skills/melee/rpr.py lines 392-401: unveiled_gallows *)
Definition rpr_m21 : pmethod := mkMethod "unveiled_gallows" []
  [SAsg "name" (EStr "Unveiled Gallows"); SRet (ECall "Skill" [] [("name", (EVar "name")); ("is_GCD", (EBool false)); ("damage_spec", (ECall
  "DamageSpec" [] [("potency", (EPot (EVar "name")))])); ("timing_spec", (ECall "TimingSpec" [] [("base_cast_time", (EInt 0)); ("animation_lock",
  (EInt 650)); ("application_delay", (EInt 540))]))])].

(** simulator/game_data/class_skills/melee/rpr.py lines 404-417: arcane_circle *)
Definition rpr_m22 : pmethod := mkMethod "arcane_circle" []
  [SAsg "name" (EStr "Arcane Circle"); SRet (ECall "Skill" [] [("name", (EVar "name")); ("is_GCD", (EBool false)); ("buff_spec", (ECall
  "StatusEffectSpec" [] [("damage_mult", (EFlt 103 100)); ("duration", (EData (EVar "name") (EStr "duration"))); ("is_party_effect", (EBool true))]));
  ("timing_spec", (ECall "TimingSpec" [] [("base_cast_time", (EInt 0)); ("animation_lock", (EInt 650)); ("application_delay", (EInt 625))]))])].

(** simulator/game_data/class_skills/melee/rpr.py lines 420-431: gluttony *)
Definition rpr_m23 : pmethod := mkMethod "gluttony" []
  [SAsg "name" (EStr "Gluttony"); SRet (ECall "Skill" [] [("name", (EVar "name")); ("is_GCD", (EBool false)); ("damage_spec", (ECall "DamageSpec" []
  [("potency", (EPot (EVar "name")))])); ("timing_spec", (ECall "TimingSpec" [] [("base_cast_time", (EInt 0)); ("animation_lock", (EInt 650));
  ("application_delay", (EInt 1070))])); ("has_aoe", (EBool true)); ("aoe_dropoff", (EFlt 1 4))])].

(** simulator/game_data/class_skills/melee/rpr.py lines 433-447: __get_enhanced_void_reaping_follow_up *)
Definition rpr_m24 : pmethod := mkMethod "__get_enhanced_void_reaping_follow_up" []
  [SAsg "name" (EStr "Enhanced Void Reaping"); SRet (ECall "FollowUp" [] [("skill", (ECall "Skill" [] [("name", (EVar "name")); ("is_GCD", (EBool
  false)); ("buff_spec", (ECall "StatusEffectSpec" [] [("add_to_skill_modifier_condition", (EBool true)); ("num_uses", (EInt 1)); ("duration", (EBin
  BMul (EInt 60) (EInt 1000))); ("skill_allowlist", (ETup [(EStr "Void Reaping")]))]))])); ("delay_after_parent_application", (EInt 0))])].

(** simulator/game_data/class_skills/melee/rpr.py lines 449-463: __get_enhanced_cross_reaping_follow_up *)
Definition rpr_m25 : pmethod := mkMethod "__get_enhanced_cross_reaping_follow_up" []
  [SAsg "name" (EStr "Enhanced Cross Reaping"); SRet (ECall "FollowUp" [] [("skill", (ECall "Skill" [] [("name", (EVar "name")); ("is_GCD", (EBool
  false)); ("buff_spec", (ECall "StatusEffectSpec" [] [("add_to_skill_modifier_condition", (EBool true)); ("num_uses", (EInt 1)); ("duration", (EBin
  BMul (EInt 60) (EInt 1000))); ("skill_allowlist", (ETup [(EStr "Cross Reaping")]))]))])); ("delay_after_parent_application", (EInt 0))])].

(** simulator/game_data/class_skills/melee/rpr.py lines 466-487: void_reaping *)
Definition rpr_m26 : pmethod := mkMethod "void_reaping" []
  [SAsg "name" (EStr "Void Reaping"); SRet (ECall "Skill" [] [("name", (EVar "name")); ("is_GCD", (EBool true)); ("damage_spec", (EDict [((EConst
  "SimConsts.DEFAULT_CONDITION"), (ECall "DamageSpec" [] [("potency", (EPot (EVar "name")))])); ((EStr "Enhanced Void Reaping"), (ECall "DamageSpec"
  [] [("potency", (EData (EVar "name") (EStr "potency_enhanced")))]))])); ("timing_spec", (ECall "TimingSpec" [] [("base_cast_time", (EInt 0));
  ("gcd_base_recast_time", (EInt 1500)); ("application_delay", (EInt 540)); ("affected_by_haste_buffs", (EBool false)); ("affected_by_speed_stat",
  (EBool false))])); ("follow_up_skills", (ETup [(EMeth "__get_enhanced_cross_reaping_follow_up" [] [])]))])].

(** simulator/game_data/class_skills/melee/rpr.py lines 490-507: cross_reaping *)
Definition rpr_m27 : pmethod := mkMethod "cross_reaping" []
  [SAsg "name" (EStr "Cross Reaping"); SRet (ECall "Skill" [] [("name", (EVar "name")); ("is_GCD", (EBool true)); ("damage_spec", (EDict [((EConst
  "SimConsts.DEFAULT_CONDITION"), (ECall "DamageSpec" [] [("potency", (EPot (EVar "name")))])); ((EStr "Enhanced Cross Reaping"), (ECall "DamageSpec"
  [] [("potency", (EData (EVar "name") (EStr "potency_enhanced")))]))])); ("timing_spec", (ECall "TimingSpec" [] [("base_cast_time", (EInt 0));
  ("gcd_base_recast_time", (EInt 1500)); ("application_delay", (EInt 620))])); ("follow_up_skills", (ETup [(EMeth
  "__get_enhanced_void_reaping_follow_up" [] [])]))])].

(** simulator/game_data/class_skills/melee/rpr.py lines 510-520: grim_reaping *)
Definition rpr_m28 : pmethod := mkMethod "grim_reaping" []
  [SAsg "name" (EStr "Grim Reaping"); SRet (ECall "Skill" [] [("name", (EVar "name")); ("is_GCD", (EBool true)); ("damage_spec", (ECall "DamageSpec"
  [] [("potency", (EPot (EVar "name")))])); ("timing_spec", (ECall "TimingSpec" [] [("base_cast_time", (EInt 0)); ("gcd_base_recast_time", (EInt
  1500)); ("application_delay", (EInt 800))])); ("has_aoe", (EBool true))])].

(** simulator/game_data/class_skills/melee/rpr.py lines 523-537: harvest_moon *)
Definition rpr_m29 : pmethod := mkMethod "harvest_moon" []
  [SAsg "name" (EStr "Harvest Moon"); SRet (ECall "Skill" [] [("name", (EVar "name")); ("is_GCD", (EBool true)); ("damage_spec", (ECall "DamageSpec"
  [] [("potency", (EPot (EVar "name")))])); ("timing_spec", (ECall "TimingSpec" [] [("base_cast_time", (EInt 0)); ("gcd_base_recast_time", (EInt
  2500)); ("application_delay", (EInt 1160)); ("affected_by_speed_stat", (EBool false))])); ("has_aoe", (EBool true)); ("aoe_dropoff", (EFlt 1 2))])].

(** simulator/game_data/class_skills/melee/rpr.py lines 540-549: lemures_slice *)
Definition rpr_m30 : pmethod := mkMethod "lemures_slice" []
  [SAsg "name" (EStr "Lemure's Slice"); SRet (ECall "Skill" [] [("name", (EVar "name")); ("is_GCD", (EBool false)); ("damage_spec", (ECall
  "DamageSpec" [] [("potency", (EPot (EVar "name")))])); ("timing_spec", (ECall "TimingSpec" [] [("base_cast_time", (EInt 0)); ("animation_lock",
  (EInt 650)); ("application_delay", (EInt 710))]))])].

(** simulator/game_data/class_skills/melee/rpr.py lines 552-562: lemures_scythe *)
Definition rpr_m31 : pmethod := mkMethod "lemures_scythe" []
  [SAsg "name" (EStr "Lemure's Scythe"); SRet (ECall "Skill" [] [("name", (EVar "name")); ("is_GCD", (EBool false)); ("damage_spec", (ECall
  "DamageSpec" [] [("potency", (EPot (EVar "name")))])); ("timing_spec", (ECall "TimingSpec" [] [("base_cast_time", (EInt 0)); ("animation_lock",
  (EInt 650)); ("application_delay", (EInt 670))])); ("has_aoe", (EBool true))])].

(** simulator/game_data/class_skills/melee/rpr.py lines 565-590: plentiful_harvest *)
Definition rpr_m32 : pmethod := mkMethod "plentiful_harvest" []
  [SAsg "name" (EStr "Plentiful Harvest"); SAsg "base_potency" (EData (EVar "name") (EStr "base_potency")); SAsg "potency_increment" (EData (EVar
  "name") (EStr "potency_increment")); SRet (ECall "Skill" [] [("name", (EVar "name")); ("is_GCD", (EBool true)); ("damage_spec", (EDict [((EConst
  "SimConsts.DEFAULT_CONDITION"), (ECall "DamageSpec" [] [("potency", (EBin BAdd (EVar "base_potency") (EBin BMul (EInt 7) (EVar
  "potency_increment"))))])); ((EStr "1 stack"), (ECall "DamageSpec" [] [("potency", (EVar "base_potency"))])); ((EStr "2 stacks"), (ECall
  "DamageSpec" [] [("potency", (EBin BAdd (EVar "base_potency") (EVar "potency_increment")))])); ((EStr "3 stacks"), (ECall "DamageSpec" []
  [("potency", (EBin BAdd (EVar "base_potency") (EBin BMul (EInt 2) (EVar "potency_increment"))))])); ((EStr "4 stacks"), (ECall "DamageSpec" []
  [("potency", (EBin BAdd (EVar "base_potency") (EBin BMul (EInt 3) (EVar "potency_increment"))))])); ((EStr "5 stacks"), (ECall "DamageSpec" []
  [("potency", (EBin BAdd (EVar "base_potency") (EBin BMul (EInt 4) (EVar "potency_increment"))))])); ((EStr "6 stacks"), (ECall "DamageSpec" []
  [("potency", (EBin BAdd (EVar "base_potency") (EBin BMul (EInt 5) (EVar "potency_increment"))))])); ((EStr "7 stacks"), (ECall "DamageSpec" []
  [("potency", (EBin BAdd (EVar "base_potency") (EBin BMul (EInt 6) (EVar "potency_increment"))))])); ((EStr "8 stacks"), (ECall "DamageSpec" []
  [("potency", (EBin BAdd (EVar "base_potency") (EBin BMul (EInt 7) (EVar "potency_increment"))))]))])); ("timing_spec", (ECall "TimingSpec" []
  [("base_cast_time", (EInt 0)); ("animation_lock", (EInt 650)); ("application_delay", (EInt 1160))])); ("has_aoe", (EBool true)); ("aoe_dropoff",
  (EFlt 3 5))])].

(** simulator/game_data/class_skills/melee/rpr.py lines 593-604: communio *)
Definition rpr_m33 : pmethod := mkMethod "communio" []
  [SAsg "name" (EStr "Communio"); SRet (ECall "Skill" [] [("name", (EVar "name")); ("is_GCD", (EBool true)); ("damage_spec", (ECall "DamageSpec" []
  [("potency", (EPot (EVar "name")))])); ("timing_spec", (ECall "TimingSpec" [] [("base_cast_time", (EInt 1300)); ("application_delay", (EInt 620));
  ("affected_by_speed_stat", (EBool false))])); ("has_aoe", (EBool true)); ("aoe_dropoff", (EFlt 3 5))])].

(** simulator/game_data/class_skills/melee/rpr.py lines 607-620: sacrificium *)
Definition rpr_m34 : pmethod := mkMethod "sacrificium" []
  [SIf (ELev OLt K92) [SRet ENone] []; SAsg "name" (EStr "Sacrificium"); SRet (ECall "Skill" [] [("name", (EVar "name")); ("is_GCD", (EBool false));
  ("damage_spec", (ECall "DamageSpec" [] [("potency", (EPot (EVar "name")))])); ("timing_spec", (ECall "TimingSpec" [] [("base_cast_time", (EInt 0));
  ("animation_lock", (EInt 650)); ("application_delay", (EInt 760))])); ("has_aoe", (EBool true)); ("aoe_dropoff", (EFlt 1 2))])].

(** simulator/game_data/class_skills/melee/rpr.py lines 623-650: executioners_gibbet *)
Definition rpr_m35 : pmethod := mkMethod "executioners_gibbet" []
  [SIf (ELev OLt K96) [SRet ENone] []; SAsg "name" (EStr "Executioner's Gibbet"); SRet (ECall "Skill" [] [("name", (EVar "name")); ("is_GCD", (EBool
  true)); ("damage_spec", (EDict [((EConst "SimConsts.DEFAULT_CONDITION"), (ECall "DamageSpec" [] [("potency", (EPot (EVar "name")))])); ((EStr
  "No Positional"), (ECall "DamageSpec" [] [("potency", (EPotNP (EVar "name")))])); ((EStr "Enhanced Gibbet"), (ECall "DamageSpec" [] [("potency",
  (EData (EVar "name") (EStr "potency_enhanced")))])); ((EStr "Enhanced Gibbet, No Positional"), (ECall "DamageSpec" [] [("potency", (EData (EVar
  "name") (EStr "potency_no_pos_enhanced")))]))])); ("timing_spec", (ECall "TimingSpec" [] [("base_cast_time", (EInt 0)); ("animation_lock", (EInt
  650)); ("application_delay", (EInt 620))])); ("follow_up_skills", (ETup [(EMeth "__get_enhanced_gallows_follow_up" [] [])]))])].

(** simulator/game_data/class_skills/melee/rpr.py lines 653-680: executioners_gallows *)
Definition rpr_m36 : pmethod := mkMethod "executioners_gallows" []
  [SIf (ELev OLt K96) [SRet ENone] []; SAsg "name" (EStr "Executioner's Gallows"); SRet (ECall "Skill" [] [("name", (EVar "name")); ("is_GCD", (EBool
  true)); ("damage_spec", (EDict [((EConst "SimConsts.DEFAULT_CONDITION"), (ECall "DamageSpec" [] [("potency", (EPot (EVar "name")))])); ((EStr
  "No Positional"), (ECall "DamageSpec" [] [("potency", (EPotNP (EVar "name")))])); ((EStr "Enhanced Gallows"), (ECall "DamageSpec" [] [("potency",
  (EData (EVar "name") (EStr "potency_enhanced")))])); ((EStr "Enhanced Gallows, No Positional"), (ECall "DamageSpec" [] [("potency", (EData (EVar
  "name") (EStr "potency_no_pos_enhanced")))]))])); ("timing_spec", (ECall "TimingSpec" [] [("base_cast_time", (EInt 0)); ("animation_lock", (EInt
  650)); ("application_delay", (EInt 2140))])); ("follow_up_skills", (ETup [(EMeth "__get_enhanced_gibbet_follow_up" [] [])]))])].

(** simulator/game_data/class_skills/melee/rpr.py lines 683-695: executioners_guillotine *)
Definition rpr_m37 : pmethod := mkMethod "executioners_guillotine" []
  [SIf (ELev OLt K96) [SRet ENone] []; SAsg "name" (EStr "Executioner's Guillotine"); SRet (ECall "Skill" [] [("name", (EVar "name")); ("is_GCD",
  (EBool true)); ("damage_spec", (ECall "DamageSpec" [] [("potency", (EPot (EVar "name")))])); ("timing_spec", (ECall "TimingSpec" []
  [("base_cast_time", (EInt 0)); ("animation_lock", (EInt 650)); ("application_delay", (EInt 540))])); ("has_aoe", (EBool true))])].

(** simulator/game_data/class_skills/melee/rpr.py lines 698-713: perfectio *)
Definition rpr_m38 : pmethod := mkMethod "perfectio" []
  [SIf (ELev OLt K100) [SRet ENone] []; SAsg "name" (EStr "Perfectio"); SRet (ECall "Skill" [] [("name", (EVar "name")); ("is_GCD", (EBool true));
  ("damage_spec", (ECall "DamageSpec" [] [("potency", (EPot (EVar "name")))])); ("timing_spec", (ECall "TimingSpec" [] [("base_cast_time", (EInt 0));
  ("application_delay", (EInt 1290)); ("affected_by_speed_stat", (EBool false))])); ("has_aoe", (EBool true)); ("aoe_dropoff", (EFlt 3 5))])].

(** simulator/game_data/class_skills/melee/rpr.py lines 716-723: hells_ingress *)
Definition rpr_m39 : pmethod := mkMethod "hells_ingress" []
  [SAsg "name" (EStr "Hell's Ingress"); SRet (ECall "Skill" [] [("name", (EVar "name")); ("is_GCD", (EBool false)); ("timing_spec", (ESelf
  "instant_timing_spec")); ("follow_up_skills", (ETup [(EMeth "__get_enhanced_harp_follow_up" [] [])]))])].

(** simulator/game_data/class_skills/melee/rpr.py lines 726-733: hells_egress *)
Definition rpr_m40 : pmethod := mkMethod "hells_egress" []
  [SAsg "name" (EStr "Hell's Egress"); SRet (ECall "Skill" [] [("name", (EVar "name")); ("is_GCD", (EBool false)); ("timing_spec", (ESelf
  "instant_timing_spec")); ("follow_up_skills", (ETup [(EMeth "__get_enhanced_harp_follow_up" [] [])]))])].

(** simulator/game_data/class_skills/melee/rpr.py lines 740-742: true_north *)
Definition rpr_m41 : pmethod := mkMethod "true_north" []
  [SAsg "name" (EStr "True North"); SRet (ECall "Skill" [] [("name", (EVar "name")); ("is_GCD", (EBool false)); ("timing_spec", (ESelf
  "instant_timing_spec"))])].

(** simulator/game_data/class_skills/melee/rpr.py lines 745-757: enshroud *)
Definition rpr_m42 : pmethod := mkMethod "enshroud" []
  [SAsg "name" (EStr "Enshroud"); SRet (ECall "Skill" [] [("name", (EVar "name")); ("is_GCD", (EBool false)); ("buff_spec", (ECall "StatusEffectSpec"
  [] [("expires_status_effects", (ETup [(EStr "Enhanced Void Reaping"); (EStr "Enhanced Cross Reaping")]))])); ("timing_spec", (ESelf
  "instant_timing_spec"))])].

(** simulator/game_data/class_skills/melee/rpr.py lines 760-774: soulsow *)
Definition rpr_m43 : pmethod := mkMethod "soulsow" []
  [SAsg "name" (EStr "Soulsow"); SRet (ECall "Skill" [] [("name", (EVar "name")); ("is_GCD", (EBool true)); ("timing_spec", (EDict [((EConst
  "SimConsts.DEFAULT_CONDITION"), (ESelf "instant_timing_spec")); ((EStr "In Combat"), (ECall "TimingSpec" [] [("base_cast_time", (EInt 5000));
  ("gcd_base_recast_time", (EInt 2500)); ("affected_by_speed_stat", (EBool false))]))]))])].

(** simulator/game_data/class_skills/melee/rpr.py lines 18-20: __init__ after super().__init__ *)
Definition rpr_init : list stmt :=
  [SAttr "_job_class" (EStr "RPR")].

(** simulator/game_data/class_skills/melee/rpr.py lines 16-774: class RprSkills; the decorated methods in the order of [dir] *)
Definition rpr_class : pclass := mkClass [] rpr_init
  [rpr_m0; rpr_m1; rpr_m2; rpr_m3; rpr_m4; rpr_m5; rpr_m6; rpr_m7; rpr_m8; rpr_m9; rpr_m10; rpr_m11; rpr_m12; rpr_m13; rpr_m14; rpr_m15; rpr_m16;
  rpr_m17; rpr_m18; rpr_m19; rpr_m20; rpr_m21; rpr_m22; rpr_m23; rpr_m24; rpr_m25; rpr_m26; rpr_m27; rpr_m28; rpr_m29; rpr_m30; rpr_m31; rpr_m32;
  rpr_m33; rpr_m34; rpr_m35; rpr_m36; rpr_m37; rpr_m38; rpr_m39; rpr_m40; rpr_m41; rpr_m42; rpr_m43]
  ["arcane_circle"; "auto"; "blood_stalk"; "communio"; "cross_reaping"; "enshroud"; "executioners_gallows"; "executioners_gibbet";
  "executioners_guillotine"; "gallows"; "gibbet"; "gluttony"; "grim_reaping"; "grim_swathe"; "guillotine"; "harpe"; "harvest_moon"; "hells_egress";
  "hells_ingress"; "infernal_slice"; "lemures_scythe"; "lemures_slice"; "nightmare_scythe"; "perfectio"; "plentiful_harvest"; "sacrificium";
  "shadow_of_death"; "slice"; "soul_scythe"; "soul_slice"; "soulsow"; "spinning_scythe"; "true_north"; "unveiled_gallows"; "unveiled_gibbet";
  "void_reaping"; "waxing_slice"; "whorl_of_death"]
  []
  rpr_data.
