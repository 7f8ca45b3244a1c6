(** * PCT: the shipped skill definitions.

    Generated by tools/gen_game_data.py from
    simulator/game_data/class_skills/caster/pct.py and simulator/game_data/class_skills/caster/pct_data.py. *)

From Coq Require Import ZArith List String.
From Verif Require Import Py.
Import ListNotations.
Open Scope string_scope.
Open Scope Z_scope.

(** simulator/game_data/class_skills/caster/pct_data.py lines 8-59, in dict-literal order *)
Definition pct_data : data_table := [
  ("Fire in Red", [(90, [("potency", [(V70, (EInt 380))])]); (100, [("potency", [(V70, (EInt 440))])])]);
  ("Aero in Green", [(90, [("potency", [(V70, (EInt 420))])]); (100, [("potency", [(V70, (EInt 480))])])]);
  ("Water in Blue", [(90, [("potency", [(V70, (EInt 460))])]); (100, [("potency", [(V70, (EInt 520))])])]);
  ("Fire II in Red", [(90, [("potency", [(V70, (EInt 100))])]); (100, [("potency", [(V70, (EInt 120))])])]);
  ("Mog of the Ages", [(90, [("potency", [(V70, (EInt 1300))])]); (100, [("potency", [(V70, (EInt 1300))])])]);
  ("Pom Muse", [(90, [("potency", [(V70, (EInt 1100))])]); (100, [("potency", [(V70, (EInt 1100))])])]);
  ("Winged Muse", [(90, [("potency", [(V70, (EInt 1100))])]); (100, [("potency", [(V70, (EInt 1100))])])]);
  ("Aero II in Green", [(90, [("potency", [(V70, (EInt 120))])]); (100, [("potency", [(V70, (EInt 140))])])]);
  ("Water II in Blue", [(90, [("potency", [(V70, (EInt 140))])]); (100, [("potency", [(V70, (EInt 160))])])]);
  ("Hammer Stamp", [(90, [("potency", [(V70, (EInt 520))])]); (100, [("potency", [(V70, (EInt 560))])])]);
  ("Blizzard in Cyan", [(90, [("potency", [(V70, (EInt 700))])]); (100, [("potency", [(V70, (EInt 800))])])]);
  ("Blizzard II in Cyan", [(90, [("potency", [(V70, (EInt 220))])]); (100, [("potency", [(V70, (EInt 240))])])]);
  ("Stone in Yellow", [(90, [("potency", [(V70, (EInt 740))])]); (100, [("potency", [(V70, (EInt 840))])])]);
  ("Thunder in Magenta", [(90, [("potency", [(V70, (EInt 780))])]); (100, [("potency", [(V70, (EInt 880))])])]);
  ("Stone II in Yellow", [(90, [("potency", [(V70, (EInt 240))])]); (100, [("potency", [(V70, (EInt 260))])])]);
  ("Thunder II in Magenta", [(90, [("potency", [(V70, (EInt 260))])]); (100, [("potency", [(V70, (EInt 280))])])]);
  ("Holy in White", [(90, [("potency", [(V70, (EInt 460))])]); (100, [("potency", [(V70, (EInt 520))])])]);
  ("Hammer Brush", [(90, [("potency", [(V70, (EInt 580))])]); (100, [("potency", [(V70, (EInt 620))])])]);
  ("Polishing Hammer", [(90, [("potency", [(V70, (EInt 640))])]); (100, [("potency", [(V70, (EInt 680))])])]);
  ("Comet in Black", [(90, [("potency", [(V70, (EInt 780))])]); (100, [("potency", [(V70, (EInt 880))])])]);
  ("Rainbow Drip", [(100, [("potency", [(V70, (EInt 1000))])])]);
  ("Clawed Muse", [(100, [("potency", [(V70, (EInt 1100))])])]);
  ("Fanged Muse", [(100, [("potency", [(V70, (EInt 1100))])])]);
  ("Retribution of the Madeen", [(100, [("potency", [(V70, (EInt 1400))])])]);
  ("Star Prism", [(100, [("potency", [(V70, (EInt 1400))])])])].

(** simulator/game_data/class_skills/caster/pct.py lines 50-56: hyperphantasia *)
Definition pct_m0 : pmethod := mkMethod "hyperphantasia" []
  [SAsg "name" (EStr "Hyperphantasia"); SAsg "job_resource_settings" (ECall "JobResourceSettings" [] [("max_value", (EInt 5)); ("skill_allowlist",
  (ESelf "__aetherhue_skills"))]); SRet (ETup [(EVar "name"); (EVar "job_resource_settings")])].

(** simulator/game_data/class_skills/caster/pct.py lines 58-72: __get_rainbow_bright_follow_up *)
Definition pct_m1 : pmethod := mkMethod "__get_rainbow_bright_follow_up" []
  [SAsg "name" (EStr "Rainbow Bright"); SRet (ECall "FollowUp" [] [("skill", (ECall "Skill" [] [("name", (EVar "name")); ("buff_spec", (ECall
  "StatusEffectSpec" [] [("add_to_skill_modifier_condition", (EBool true)); ("num_uses", (EInt 1)); ("duration", (EBin BMul (EInt 30) (EInt 1000)));
  ("flat_gcd_recast_time_reduction", (EInt 3500)); ("skill_allowlist", (ETup [(EStr "Rainbow Drip")]))]))])); ("delay_after_parent_application", (EInt
  0))])].

(** simulator/game_data/class_skills/caster/pct.py lines 75-84: auto *)
Definition pct_m2 : pmethod := mkMethod "auto" []
  [SAsg "name" (EStr "Auto"); SRet (ECall "Skill" [] [("name", (EVar "name")); ("is_GCD", (EBool false)); ("timing_spec", (ESelf "auto_timing_spec"));
  ("damage_spec", (ECall "DamageSpec" [] [("potency", (EInt 90)); ("damage_class", (EConst "DamageClass.AUTO")); ("trait_damage_mult_override", (EInt
  1))]))])].

(** simulator/game_data/class_skills/caster/pct.py lines 87-103: fire_in_red *)
Definition pct_m3 : pmethod := mkMethod "fire_in_red" []
  [SAsg "name" (EStr "Fire in Red"); SRet (ECall "Skill" [] [("name", (EVar "name")); ("is_GCD", (EBool true)); ("damage_spec", (ECall "DamageSpec" []
  [("potency", (EPot (EVar "name")))])); ("timing_spec", (ECall "TimingSpec" [] [("base_cast_time", (EInt 1500)); ("animation_lock", (ESelf
  "__pct_caster_tax_ms")); ("application_delay", (EInt 840))])); ("job_resource_spec", (ETup [(ECall "JobResourceSpec" [] [("name", (EStr
  "Hyperphantasia")); ("change", (ENeg (EInt 1)))])])); ("follow_up_skills", (EDict [((EConst "SimConsts.DEFAULT_CONDITION"), (ECall "tuple" [] []));
  ((EStr "1 Hyperphantasia"), (ETup [(EMeth "__get_rainbow_bright_follow_up" [] [])]))]))])].

(** simulator/game_data/class_skills/caster/pct.py lines 106-122: aero_in_freen *)
Definition pct_m4 : pmethod := mkMethod "aero_in_freen" []
  [SAsg "name" (EStr "Aero in Green"); SRet (ECall "Skill" [] [("name", (EVar "name")); ("is_GCD", (EBool true)); ("damage_spec", (ECall "DamageSpec"
  [] [("potency", (EPot (EVar "name")))])); ("timing_spec", (ECall "TimingSpec" [] [("base_cast_time", (EInt 1500)); ("animation_lock", (ESelf
  "__pct_caster_tax_ms")); ("application_delay", (EInt 890))])); ("job_resource_spec", (ETup [(ECall "JobResourceSpec" [] [("name", (EStr
  "Hyperphantasia")); ("change", (ENeg (EInt 1)))])])); ("follow_up_skills", (EDict [((EConst "SimConsts.DEFAULT_CONDITION"), (ECall "tuple" [] []));
  ((EStr "1 Hyperphantasia"), (ETup [(EMeth "__get_rainbow_bright_follow_up" [] [])]))]))])].

(** simulator/game_data/class_skills/caster/pct.py lines 125-141: water_in_blue *)
Definition pct_m5 : pmethod := mkMethod "water_in_blue" []
  [SAsg "name" (EStr "Water in Blue"); SRet (ECall "Skill" [] [("name", (EVar "name")); ("is_GCD", (EBool true)); ("damage_spec", (ECall "DamageSpec"
  [] [("potency", (EPot (EVar "name")))])); ("timing_spec", (ECall "TimingSpec" [] [("base_cast_time", (EInt 1500)); ("animation_lock", (ESelf
  "__pct_caster_tax_ms")); ("application_delay", (EInt 980))])); ("job_resource_spec", (ETup [(ECall "JobResourceSpec" [] [("name", (EStr
  "Hyperphantasia")); ("change", (ENeg (EInt 1)))])])); ("follow_up_skills", (EDict [((EConst "SimConsts.DEFAULT_CONDITION"), (ECall "tuple" [] []));
  ((EStr "1 Hyperphantasia"), (ETup [(EMeth "__get_rainbow_bright_follow_up" [] [])]))]))])].

(** simulator/game_data/class_skills/caster/pct.py lines 144-161: fire_ii_in_red *)
Definition pct_m6 : pmethod := mkMethod "fire_ii_in_red" []
  [SAsg "name" (EStr "Fire II in Red"); SRet (ECall "Skill" [] [("name", (EVar "name")); ("is_GCD", (EBool true)); ("damage_spec", (ECall "DamageSpec"
  [] [("potency", (EPot (EVar "name")))])); ("timing_spec", (ECall "TimingSpec" [] [("base_cast_time", (EInt 1500)); ("animation_lock", (ESelf
  "__pct_caster_tax_ms")); ("application_delay", (EInt 840))])); ("job_resource_spec", (ETup [(ECall "JobResourceSpec" [] [("name", (EStr
  "Hyperphantasia")); ("change", (ENeg (EInt 1)))])])); ("follow_up_skills", (EDict [((EConst "SimConsts.DEFAULT_CONDITION"), (ECall "tuple" [] []));
  ((EStr "1 Hyperphantasia"), (ETup [(EMeth "__get_rainbow_bright_follow_up" [] [])]))])); ("has_aoe", (EBool true))])].

(** simulator/game_data/class_skills/caster/pct.py lines 164-177: mog_of_the_ages *)
Definition pct_m7 : pmethod := mkMethod "mog_of_the_ages" []
  [SAsg "name" (EStr "Mog of the Ages"); SRet (ECall "Skill" [] [("name", (EVar "name")); ("is_GCD", (EBool false)); ("damage_spec", (ECall
  "DamageSpec" [] [("potency", (EPot (EVar "name")))])); ("timing_spec", (ECall "TimingSpec" [] [("base_cast_time", (EInt 0)); ("animation_lock",
  (ESelf "__base_animation_lock")); ("application_delay", (EInt 1150))])); ("has_aoe", (EBool true)); ("aoe_dropoff", (EFlt 3 5))])].

(** simulator/game_data/class_skills/caster/pct.py lines 180-193: pom_muse *)
Definition pct_m8 : pmethod := mkMethod "pom_muse" []
  [SAsg "name" (EStr "Pom Muse"); SRet (ECall "Skill" [] [("name", (EVar "name")); ("is_GCD", (EBool false)); ("damage_spec", (ECall "DamageSpec" []
  [("potency", (EPot (EVar "name")))])); ("timing_spec", (ECall "TimingSpec" [] [("base_cast_time", (EInt 0)); ("animation_lock", (ESelf
  "__base_animation_lock")); ("application_delay", (EInt 620))])); ("has_aoe", (EBool true)); ("aoe_dropoff", (EFlt 3 5))])].

(** simulator/game_data/class_skills/caster/pct.py lines 196-209: winged_muse *)
Definition pct_m9 : pmethod := mkMethod "winged_muse" []
  [SAsg "name" (EStr "Winged Muse"); SRet (ECall "Skill" [] [("name", (EVar "name")); ("is_GCD", (EBool false)); ("damage_spec", (ECall "DamageSpec"
  [] [("potency", (EPot (EVar "name")))])); ("timing_spec", (ECall "TimingSpec" [] [("base_cast_time", (EInt 0)); ("animation_lock", (ESelf
  "__base_animation_lock")); ("application_delay", (EInt 980))])); ("has_aoe", (EBool true)); ("aoe_dropoff", (EFlt 3 5))])].

(** simulator/game_data/class_skills/caster/pct.py lines 212-229: aero_ii_in_green *)
Definition pct_m10 : pmethod := mkMethod "aero_ii_in_green" []
  [SAsg "name" (EStr "Aero II in Green"); SRet (ECall "Skill" [] [("name", (EVar "name")); ("is_GCD", (EBool true)); ("damage_spec", (ECall
  "DamageSpec" [] [("potency", (EPot (EVar "name")))])); ("timing_spec", (ECall "TimingSpec" [] [("base_cast_time", (EInt 1500)); ("animation_lock",
  (ESelf "__pct_caster_tax_ms")); ("application_delay", (EInt 890))])); ("job_resource_spec", (ETup [(ECall "JobResourceSpec" [] [("name", (EStr
  "Hyperphantasia")); ("change", (ENeg (EInt 1)))])])); ("follow_up_skills", (EDict [((EConst "SimConsts.DEFAULT_CONDITION"), (ECall "tuple" [] []));
  ((EStr "1 Hyperphantasia"), (ETup [(EMeth "__get_rainbow_bright_follow_up" [] [])]))])); ("has_aoe", (EBool true))])].

(** simulator/game_data/class_skills/caster/pct.py lines 232-249: water_ii_in_blue *)
Definition pct_m11 : pmethod := mkMethod "water_ii_in_blue" []
  [SAsg "name" (EStr "Water II in Blue"); SRet (ECall "Skill" [] [("name", (EVar "name")); ("is_GCD", (EBool true)); ("damage_spec", (ECall
  "DamageSpec" [] [("potency", (EPot (EVar "name")))])); ("timing_spec", (ECall "TimingSpec" [] [("base_cast_time", (EInt 1500)); ("animation_lock",
  (ESelf "__pct_caster_tax_ms")); ("application_delay", (EInt 980))])); ("job_resource_spec", (ETup [(ECall "JobResourceSpec" [] [("name", (EStr
  "Hyperphantasia")); ("change", (ENeg (EInt 1)))])])); ("follow_up_skills", (EDict [((EConst "SimConsts.DEFAULT_CONDITION"), (ECall "tuple" [] []));
  ((EStr "1 Hyperphantasia"), (ETup [(EMeth "__get_rainbow_bright_follow_up" [] [])]))])); ("has_aoe", (EBool true))])].

(** simulator/game_data/class_skills/caster/pct.py lines 252-269: hammer_stamp *)
Definition pct_m12 : pmethod := mkMethod "hammer_stamp" []
  [SAsg "name" (EStr "Hammer Stamp"); SRet (ECall "Skill" [] [("name", (EVar "name")); ("is_GCD", (EBool true)); ("damage_spec", (ECall "DamageSpec"
  [] [("potency", (EPot (EVar "name"))); ("guaranteed_crit", (EConst "ForcedCritOrDH.FORCE_YES")); ("guaranteed_dh", (EConst
  "ForcedCritOrDH.FORCE_YES"))])); ("timing_spec", (ECall "TimingSpec" [] [("base_cast_time", (EInt 0)); ("animation_lock", (ESelf
  "__base_animation_lock")); ("application_delay", (EInt 1380))])); ("has_aoe", (EBool true)); ("aoe_dropoff", (EFlt 3 5))])].

(** simulator/game_data/class_skills/caster/pct.py lines 272-290: blizzard_in_cyan *)
Definition pct_m13 : pmethod := mkMethod "blizzard_in_cyan" []
  [SAsg "name" (EStr "Blizzard in Cyan"); SRet (ECall "Skill" [] [("name", (EVar "name")); ("is_GCD", (EBool true)); ("damage_spec", (ECall
  "DamageSpec" [] [("potency", (EPot (EVar "name")))])); ("timing_spec", (ECall "TimingSpec" [] [("base_cast_time", (EInt 2300)); ("animation_lock",
  (ESelf "__pct_caster_tax_ms")); ("application_delay", (EInt 750)); ("gcd_base_recast_time", (EInt 3300))])); ("job_resource_spec", (ETup [(ECall
  "JobResourceSpec" [] [("name", (EStr "Hyperphantasia")); ("change", (ENeg (EInt 1)))])])); ("follow_up_skills", (EDict [((EConst
  "SimConsts.DEFAULT_CONDITION"), (ECall "tuple" [] [])); ((EStr "1 Hyperphantasia"), (ETup [(EMeth "__get_rainbow_bright_follow_up" [] [])]))]));
  ("has_aoe", (EBool true))])].

(** simulator/game_data/class_skills/caster/pct.py lines 293-310: blizzard_ii_in_cyan *)
Definition pct_m14 : pmethod := mkMethod "blizzard_ii_in_cyan" []
  [SAsg "name" (EStr "Blizzard II in Cyan"); SRet (ECall "Skill" [] [("name", (EVar "name")); ("is_GCD", (EBool true)); ("damage_spec", (ECall
  "DamageSpec" [] [("potency", (EPot (EVar "name")))])); ("timing_spec", (ECall "TimingSpec" [] [("base_cast_time", (EInt 2300)); ("animation_lock",
  (ESelf "__pct_caster_tax_ms")); ("application_delay", (EInt 750)); ("gcd_base_recast_time", (EInt 3300))])); ("job_resource_spec", (ETup [(ECall
  "JobResourceSpec" [] [("name", (EStr "Hyperphantasia")); ("change", (ENeg (EInt 1)))])])); ("follow_up_skills", (EDict [((EConst
  "SimConsts.DEFAULT_CONDITION"), (ECall "tuple" [] [])); ((EStr "1 Hyperphantasia"), (ETup [(EMeth "__get_rainbow_bright_follow_up" [] [])]))]))])].

(** simulator/game_data/class_skills/caster/pct.py lines 313-330: stone_in_yellow *)
Definition pct_m15 : pmethod := mkMethod "stone_in_yellow" []
  [SAsg "name" (EStr "Stone in Yellow"); SRet (ECall "Skill" [] [("name", (EVar "name")); ("is_GCD", (EBool true)); ("damage_spec", (ECall
  "DamageSpec" [] [("potency", (EPot (EVar "name")))])); ("timing_spec", (ECall "TimingSpec" [] [("base_cast_time", (EInt 2300)); ("animation_lock",
  (ESelf "__pct_caster_tax_ms")); ("application_delay", (EInt 800)); ("gcd_base_recast_time", (EInt 3300))])); ("job_resource_spec", (ETup [(ECall
  "JobResourceSpec" [] [("name", (EStr "Hyperphantasia")); ("change", (ENeg (EInt 1)))])])); ("follow_up_skills", (EDict [((EConst
  "SimConsts.DEFAULT_CONDITION"), (ECall "tuple" [] [])); ((EStr "1 Hyperphantasia"), (ETup [(EMeth "__get_rainbow_bright_follow_up" [] [])]))]))])].

(** simulator/game_data/class_skills/caster/pct.py lines 333-350: thunder_in_magenta *)
Definition pct_m16 : pmethod := mkMethod "thunder_in_magenta" []
  [SAsg "name" (EStr "Thunder in Magenta"); SRet (ECall "Skill" [] [("name", (EVar "name")); ("is_GCD", (EBool true)); ("damage_spec", (ECall
  "DamageSpec" [] [("potency", (EPot (EVar "name")))])); ("timing_spec", (ECall "TimingSpec" [] [("base_cast_time", (EInt 2300)); ("animation_lock",
  (ESelf "__pct_caster_tax_ms")); ("application_delay", (EInt 850)); ("gcd_base_recast_time", (EInt 3300))])); ("job_resource_spec", (ETup [(ECall
  "JobResourceSpec" [] [("name", (EStr "Hyperphantasia")); ("change", (ENeg (EInt 1)))])])); ("follow_up_skills", (EDict [((EConst
  "SimConsts.DEFAULT_CONDITION"), (ECall "tuple" [] [])); ((EStr "1 Hyperphantasia"), (ETup [(EMeth "__get_rainbow_bright_follow_up" [] [])]))]))])].

(** simulator/game_data/class_skills/caster/pct.py lines 353-371: stone_ii_in_yellow *)
Definition pct_m17 : pmethod := mkMethod "stone_ii_in_yellow" []
  [SAsg "name" (EStr "Stone II in Yellow"); SRet (ECall "Skill" [] [("name", (EVar "name")); ("is_GCD", (EBool true)); ("damage_spec", (ECall
  "DamageSpec" [] [("potency", (EPot (EVar "name")))])); ("timing_spec", (ECall "TimingSpec" [] [("base_cast_time", (EInt 2300)); ("animation_lock",
  (ESelf "__pct_caster_tax_ms")); ("application_delay", (EInt 800)); ("gcd_base_recast_time", (EInt 3300))])); ("job_resource_spec", (ETup [(ECall
  "JobResourceSpec" [] [("name", (EStr "Hyperphantasia")); ("change", (ENeg (EInt 1)))])])); ("follow_up_skills", (EDict [((EConst
  "SimConsts.DEFAULT_CONDITION"), (ECall "tuple" [] [])); ((EStr "1 Hyperphantasia"), (ETup [(EMeth "__get_rainbow_bright_follow_up" [] [])]))]));
  ("has_aoe", (EBool true))])].

(** simulator/game_data/class_skills/caster/pct.py lines 374-392: thunder_ii_in_magenta *)
Definition pct_m18 : pmethod := mkMethod "thunder_ii_in_magenta" []
  [SAsg "name" (EStr "Thunder II in Magenta"); SRet (ECall "Skill" [] [("name", (EVar "name")); ("is_GCD", (EBool true)); ("damage_spec", (ECall
  "DamageSpec" [] [("potency", (EPot (EVar "name")))])); ("timing_spec", (ECall "TimingSpec" [] [("base_cast_time", (EInt 2300)); ("animation_lock",
  (ESelf "__pct_caster_tax_ms")); ("application_delay", (EInt 850)); ("gcd_base_recast_time", (EInt 3300))])); ("job_resource_spec", (ETup [(ECall
  "JobResourceSpec" [] [("name", (EStr "Hyperphantasia")); ("change", (ENeg (EInt 1)))])])); ("follow_up_skills", (EDict [((EConst
  "SimConsts.DEFAULT_CONDITION"), (ECall "tuple" [] [])); ((EStr "1 Hyperphantasia"), (ETup [(EMeth "__get_rainbow_bright_follow_up" [] [])]))]));
  ("has_aoe", (EBool true))])].

(** simulator/game_data/class_skills/caster/pct.py lines 395-437: starry_muse *)
Definition pct_m19 : pmethod := mkMethod "starry_muse" []
  [SAsg "inspiration_follow_up" (ECall "FollowUp" [] [("skill", (ECall "Skill" [] [("name", (EStr "Inspiration")); ("buff_spec", (ECall
  "StatusEffectSpec" [] [("duration", (EBin BMul (EInt 30) (EInt 1000))); ("num_uses", (EInt 5)); ("haste_time_reduction", (EFlt 1 4));
  ("skill_allowlist", (ESelf "__aetherhue_skills"))]))])); ("delay_after_parent_application", (EInt 0))]); SAsg "name" (EStr "Starry Muse"); SRet
  (ECall "Skill" [] [("name", (EVar "name")); ("is_GCD", (EBool false)); ("timing_spec", (ECall "TimingSpec" [] [("base_cast_time", (EInt 0));
  ("animation_lock", (ESelf "__base_animation_lock")); ("application_delay", (EInt 0))])); ("buff_spec", (EDict [((EConst
  "SimConsts.DEFAULT_CONDITION"), (ECall "StatusEffectSpec" [] [("damage_mult", (EFlt 21 20)); ("duration", (ECall "int" [(EBin BMul (EFlt 407 20)
  (EInt 1000))] [])); ("is_party_effect", (EBool true))])); ((EStr "Longest"), (ECall "StatusEffectSpec" [] [("damage_mult", (EFlt 21 20));
  ("duration", (ECall "int" [(EBin BMul (EFlt 43 2) (EInt 1000))] [])); ("is_party_effect", (EBool true))]))])); ("job_resource_spec", (EDict
  [((EConst "SimConsts.DEFAULT_CONDITION"), (ETup [(ECall "JobResourceSpec" [] [("name", (EStr "Hyperphantasia")); ("change", (EInt 5))])])); ((EStr
  "Buff Only"), (ECall "tuple" [] []))])); ("follow_up_skills", (EDict [((EConst "SimConsts.DEFAULT_CONDITION"), (ETup [(EVar
  "inspiration_follow_up")])); ((EStr "Buff Only"), (ECall "tuple" [] []))])); ("off_class_default_condition", (EStr "Buff Only"))])].

(** simulator/game_data/class_skills/caster/pct.py lines 440-458: holy_in_white *)
Definition pct_m20 : pmethod := mkMethod "holy_in_white" []
  [SAsg "name" (EStr "Holy in White"); SRet (ECall "Skill" [] [("name", (EVar "name")); ("is_GCD", (EBool true)); ("damage_spec", (ECall "DamageSpec"
  [] [("potency", (EPot (EVar "name")))])); ("timing_spec", (ECall "TimingSpec" [] [("base_cast_time", (EInt 0)); ("animation_lock", (ESelf
  "__base_animation_lock")); ("application_delay", (EInt 1340))])); ("job_resource_spec", (ETup [(ECall "JobResourceSpec" [] [("name", (EStr
  "Hyperphantasia")); ("change", (ENeg (EInt 1)))])])); ("follow_up_skills", (EDict [((EConst "SimConsts.DEFAULT_CONDITION"), (ECall "tuple" [] []));
  ((EStr "1 Hyperphantasia"), (ETup [(EMeth "__get_rainbow_bright_follow_up" [] [])]))])); ("has_aoe", (EBool true)); ("aoe_dropoff", (EFlt 3 5))])].

(** simulator/game_data/class_skills/caster/pct.py lines 461-478: hammer_brush *)
Definition pct_m21 : pmethod := mkMethod "hammer_brush" []
  [SAsg "name" (EStr "Hammer Brush"); SRet (ECall "Skill" [] [("name", (EVar "name")); ("is_GCD", (EBool true)); ("damage_spec", (ECall "DamageSpec"
  [] [("potency", (EPot (EVar "name"))); ("guaranteed_crit", (EConst "ForcedCritOrDH.FORCE_YES")); ("guaranteed_dh", (EConst
  "ForcedCritOrDH.FORCE_YES"))])); ("timing_spec", (ECall "TimingSpec" [] [("base_cast_time", (EInt 0)); ("animation_lock", (ESelf
  "__base_animation_lock")); ("application_delay", (EInt 1250))])); ("has_aoe", (EBool true)); ("aoe_dropoff", (EFlt 3 5))])].

(** simulator/game_data/class_skills/caster/pct.py lines 481-498: polishing_hammer *)
Definition pct_m22 : pmethod := mkMethod "polishing_hammer" []
  [SAsg "name" (EStr "Polishing Hammer"); SRet (ECall "Skill" [] [("name", (EVar "name")); ("is_GCD", (EBool true)); ("damage_spec", (ECall
  "DamageSpec" [] [("potency", (EPot (EVar "name"))); ("guaranteed_crit", (EConst "ForcedCritOrDH.FORCE_YES")); ("guaranteed_dh", (EConst
  "ForcedCritOrDH.FORCE_YES"))])); ("timing_spec", (ECall "TimingSpec" [] [("base_cast_time", (EInt 0)); ("animation_lock", (ESelf
  "__base_animation_lock")); ("application_delay", (EInt 2100))])); ("has_aoe", (EBool true)); ("aoe_dropoff", (EFlt 3 5))])].

(** simulator/game_data/class_skills/caster/pct.py lines 501-520: comet_in_black *)
Definition pct_m23 : pmethod := mkMethod "comet_in_black" []
  [SAsg "name" (EStr "Comet in Black"); SRet (ECall "Skill" [] [("name", (EVar "name")); ("is_GCD", (EBool true)); ("damage_spec", (ECall "DamageSpec"
  [] [("potency", (EPot (EVar "name")))])); ("timing_spec", (ECall "TimingSpec" [] [("base_cast_time", (EInt 0)); ("animation_lock", (ESelf
  "__base_animation_lock")); ("application_delay", (EInt 1870)); ("gcd_base_recast_time", (EInt 3300))])); ("job_resource_spec", (ETup [(ECall
  "JobResourceSpec" [] [("name", (EStr "Hyperphantasia")); ("change", (ENeg (EInt 1)))])])); ("follow_up_skills", (EDict [((EConst
  "SimConsts.DEFAULT_CONDITION"), (ECall "tuple" [] [])); ((EStr "1 Hyperphantasia"), (ETup [(EMeth "__get_rainbow_bright_follow_up" [] [])]))]));
  ("has_aoe", (EBool true)); ("aoe_dropoff", (EFlt 3 5))])].

(** simulator/game_data/class_skills/caster/pct.py lines 523-547: rainbow_drip *)
Definition pct_m24 : pmethod := mkMethod "rainbow_drip" []
  [SIf (ELev OLt K92) [SRet ENone] []; SAsg "name" (EStr "Rainbow Drip"); SRet (ECall "Skill" [] [("name", (EVar "name")); ("is_GCD", (EBool true));
  ("damage_spec", (ECall "DamageSpec" [] [("potency", (EPot (EVar "name")))])); ("timing_spec", (EDict [((EConst "SimConsts.DEFAULT_CONDITION"),
  (ECall "TimingSpec" [] [("base_cast_time", (EInt 4000)); ("animation_lock", (ESelf "__pct_caster_tax_ms")); ("application_delay", (EInt 1240));
  ("gcd_base_recast_time", (EInt 6000))])); ((EStr "Rainbow Bright"), (ECall "TimingSpec" [] [("base_cast_time", (EInt 0)); ("animation_lock", (ESelf
  "__base_animation_lock")); ("application_delay", (EInt 1240)); ("gcd_base_recast_time", (EInt 6000))]))])); ("has_aoe", (EBool true));
  ("aoe_dropoff", (EFlt 17 20))])].

(** simulator/game_data/class_skills/caster/pct.py lines 550-565: clawed_muse *)
Definition pct_m25 : pmethod := mkMethod "clawed_muse" []
  [SIf (ELev OLt K96) [SRet ENone] []; SAsg "name" (EStr "Clawed Muse"); SRet (ECall "Skill" [] [("name", (EVar "name")); ("is_GCD", (EBool false));
  ("damage_spec", (ECall "DamageSpec" [] [("potency", (EPot (EVar "name")))])); ("timing_spec", (ECall "TimingSpec" [] [("base_cast_time", (EInt 0));
  ("animation_lock", (ESelf "__base_animation_lock")); ("application_delay", (EInt 980))])); ("has_aoe", (EBool true)); ("aoe_dropoff", (EFlt 3
  5))])].

(** simulator/game_data/class_skills/caster/pct.py lines 568-583: fanged_muse *)
Definition pct_m26 : pmethod := mkMethod "fanged_muse" []
  [SIf (ELev OLt K96) [SRet ENone] []; SAsg "name" (EStr "Fanged Muse"); SRet (ECall "Skill" [] [("name", (EVar "name")); ("is_GCD", (EBool false));
  ("damage_spec", (ECall "DamageSpec" [] [("potency", (EPot (EVar "name")))])); ("timing_spec", (ECall "TimingSpec" [] [("base_cast_time", (EInt 0));
  ("animation_lock", (ESelf "__base_animation_lock")); ("application_delay", (EInt 1160))])); ("has_aoe", (EBool true)); ("aoe_dropoff", (EFlt 3
  5))])].

(** simulator/game_data/class_skills/caster/pct.py lines 586-601: retribution_of_the_madeen *)
Definition pct_m27 : pmethod := mkMethod "retribution_of_the_madeen" []
  [SIf (ELev OLt K96) [SRet ENone] []; SAsg "name" (EStr "Retribution of the Madeen"); SRet (ECall "Skill" [] [("name", (EVar "name")); ("is_GCD",
  (EBool false)); ("damage_spec", (ECall "DamageSpec" [] [("potency", (EPot (EVar "name")))])); ("timing_spec", (ECall "TimingSpec" []
  [("base_cast_time", (EInt 0)); ("animation_lock", (ESelf "__base_animation_lock")); ("application_delay", (EInt 1300))])); ("has_aoe", (EBool
  true)); ("aoe_dropoff", (EFlt 3 5))])].

(** simulator/game_data/class_skills/caster/pct.py lines 604-624: star_prism *)
Definition pct_m28 : pmethod := mkMethod "star_prism" []
  [SIf (ELev OLt K100) [SRet ENone] []; SAsg "name" (EStr "Star Prism"); SRet (ECall "Skill" [] [("name", (EVar "name")); ("is_GCD", (EBool true));
  ("damage_spec", (ECall "DamageSpec" [] [("potency", (EPot (EVar "name")))])); ("timing_spec", (ECall "TimingSpec" [] [("base_cast_time", (EInt 0));
  ("animation_lock", (ESelf "__base_animation_lock")); ("application_delay", (EInt 1250))])); ("job_resource_spec", (ETup [(ECall "JobResourceSpec" []
  [("name", (EStr "Hyperphantasia")); ("change", (ENeg (EInt 1)))])])); ("follow_up_skills", (EDict [((EConst "SimConsts.DEFAULT_CONDITION"), (ECall
  "tuple" [] [])); ((EStr "1 Hyperphantasia"), (ETup [(EMeth "__get_rainbow_bright_follow_up" [] [])]))])); ("has_aoe", (EBool true)); ("aoe_dropoff",
  (EFlt 3 5))])].

(** simulator/game_data/class_skills/caster/pct.py lines 631-665: swiftcast *)
Definition pct_m29 : pmethod := mkMethod "swiftcast" []
  [SRet (ECall "Skill" [] [("name", (EStr "Swiftcast")); ("is_GCD", (EBool false)); ("timing_spec", (ESelf "__pct_instant_timing_spec"));
  ("buff_spec", (ECall "StatusEffectSpec" [] [("flat_cast_time_reduction", (EConst "math.inf")); ("duration", (EBin BMul (EInt 10) (EInt 1000)));
  ("num_uses", (EInt 1)); ("skill_allowlist", (ETup [(EStr "Fire in Red"); (EStr "Aero in Green"); (EStr "Water in Blue"); (EStr "Fire II in Red");
  (EStr "Creature Motif"); (EStr "Aero II in Green"); (EStr "Water II in Blue"); (EStr "Weapon Motif"); (EStr "Blizzard in Cyan"); (EStr
  "Blizzard II in Cyan"); (EStr "Stone in Yellow"); (EStr "Thunder in Magenta"); (EStr "Stone II in Yellow"); (EStr "Thunder II in Magenta"); (EStr
  "Landscape Motif"); (EStr "Wing Motif"); (EStr "Pom Motif"); (EStr "Claw Motif"); (EStr "Hammer Motif"); (EStr "Starry Sky Motif"); (EStr
  "Maw Motif"); (EStr "Rainbow Drip")]))]))])].

(** simulator/game_data/class_skills/caster/pct.py lines 668-678: tempera_coat *)
Definition pct_m30 : pmethod := mkMethod "tempera_coat" []
  [SAsg "name" (EStr "Tempera Coat"); SRet (ECall "Skill" [] [("name", (EVar "name")); ("is_GCD", (EBool false)); ("timing_spec", (ECall "TimingSpec"
  [] [("base_cast_time", (EInt 0)); ("animation_lock", (ESelf "__base_animation_lock")); ("application_delay", (EInt 650))]))])].

(** simulator/game_data/class_skills/caster/pct.py lines 681-691: smudge *)
Definition pct_m31 : pmethod := mkMethod "smudge" []
  [SAsg "name" (EStr "Smudge"); SRet (ECall "Skill" [] [("name", (EVar "name")); ("is_GCD", (EBool false)); ("timing_spec", (ECall "TimingSpec" []
  [("base_cast_time", (EInt 0)); ("animation_lock", (ESelf "__base_animation_lock")); ("application_delay", (EInt 650))]))])].

(** simulator/game_data/class_skills/caster/pct.py lines 694-705: creature_motif *)
Definition pct_m32 : pmethod := mkMethod "creature_motif" []
  [SAsg "name" (EStr "Creature Motif"); SRet (ECall "Skill" [] [("name", (EVar "name")); ("is_GCD", (EBool true)); ("timing_spec", (ECall "TimingSpec"
  [] [("base_cast_time", (EInt 3000)); ("animation_lock", (ESelf "__pct_caster_tax_ms")); ("gcd_base_recast_time", (EInt 4000)); ("application_delay",
  (EInt 650))]))])].

(** simulator/game_data/class_skills/caster/pct.py lines 708-718: living_muse *)
Definition pct_m33 : pmethod := mkMethod "living_muse" []
  [SAsg "name" (EStr "Living Muse"); SRet (ECall "Skill" [] [("name", (EVar "name")); ("is_GCD", (EBool false)); ("timing_spec", (ECall "TimingSpec"
  [] [("base_cast_time", (EInt 0)); ("animation_lock", (ESelf "__base_animation_lock")); ("application_delay", (EInt 650))]))])].

(** simulator/game_data/class_skills/caster/pct.py lines 721-732: pom_motif *)
Definition pct_m34 : pmethod := mkMethod "pom_motif" []
  [SAsg "name" (EStr "Pom Motif"); SRet (ECall "Skill" [] [("name", (EVar "name")); ("is_GCD", (EBool true)); ("timing_spec", (ECall "TimingSpec" []
  [("base_cast_time", (EInt 3000)); ("animation_lock", (ESelf "__pct_caster_tax_ms")); ("gcd_base_recast_time", (EInt 4000)); ("application_delay",
  (EInt 650))]))])].

(** simulator/game_data/class_skills/caster/pct.py lines 735-746: wing_motif *)
Definition pct_m35 : pmethod := mkMethod "wing_motif" []
  [SAsg "name" (EStr "Wing Motif"); SRet (ECall "Skill" [] [("name", (EVar "name")); ("is_GCD", (EBool true)); ("timing_spec", (ECall "TimingSpec" []
  [("base_cast_time", (EInt 3000)); ("animation_lock", (ESelf "__pct_caster_tax_ms")); ("gcd_base_recast_time", (EInt 4000)); ("application_delay",
  (EInt 650))]))])].

(** simulator/game_data/class_skills/caster/pct.py lines 749-760: weapon_motif *)
Definition pct_m36 : pmethod := mkMethod "weapon_motif" []
  [SAsg "name" (EStr "Weapon Motif"); SRet (ECall "Skill" [] [("name", (EVar "name")); ("is_GCD", (EBool true)); ("timing_spec", (ECall "TimingSpec"
  [] [("base_cast_time", (EInt 3000)); ("animation_lock", (ESelf "__pct_caster_tax_ms")); ("gcd_base_recast_time", (EInt 4000)); ("application_delay",
  (EInt 650))]))])].

(** simulator/game_data/class_skills/caster/pct.py lines 763-773: steel_muse *)
Definition pct_m37 : pmethod := mkMethod "steel_muse" []
  [SAsg "name" (EStr "Steel Muse"); SRet (ECall "Skill" [] [("name", (EVar "name")); ("is_GCD", (EBool false)); ("timing_spec", (ECall "TimingSpec" []
  [("base_cast_time", (EInt 0)); ("animation_lock", (ESelf "__base_animation_lock")); ("application_delay", (EInt 650))]))])].

(** simulator/game_data/class_skills/caster/pct.py lines 776-787: hammer_motif *)
Definition pct_m38 : pmethod := mkMethod "hammer_motif" []
  [SAsg "name" (EStr "Hammer Motif"); SRet (ECall "Skill" [] [("name", (EVar "name")); ("is_GCD", (EBool true)); ("timing_spec", (ECall "TimingSpec"
  [] [("base_cast_time", (EInt 3000)); ("animation_lock", (ESelf "__pct_caster_tax_ms")); ("gcd_base_recast_time", (EInt 4000)); ("application_delay",
  (EInt 650))]))])].

(** simulator/game_data/class_skills/caster/pct.py lines 790-800: striking_muse *)
Definition pct_m39 : pmethod := mkMethod "striking_muse" []
  [SAsg "name" (EStr "Striking Muse"); SRet (ECall "Skill" [] [("name", (EVar "name")); ("is_GCD", (EBool false)); ("timing_spec", (ECall "TimingSpec"
  [] [("base_cast_time", (EInt 0)); ("animation_lock", (ESelf "__base_animation_lock")); ("application_delay", (EInt 650))]))])].

(** simulator/game_data/class_skills/caster/pct.py lines 803-813: subtractive_palette *)
Definition pct_m40 : pmethod := mkMethod "subtractive_palette" []
  [SAsg "name" (EStr "Subtractive Palette"); SRet (ECall "Skill" [] [("name", (EVar "name")); ("is_GCD", (EBool false)); ("timing_spec", (ECall
  "TimingSpec" [] [("base_cast_time", (EInt 0)); ("animation_lock", (ESelf "__base_animation_lock")); ("application_delay", (EInt 650))]))])].

(** simulator/game_data/class_skills/caster/pct.py lines 816-827: landscape_motif *)
Definition pct_m41 : pmethod := mkMethod "landscape_motif" []
  [SAsg "name" (EStr "Landscape Motif"); SRet (ECall "Skill" [] [("name", (EVar "name")); ("is_GCD", (EBool true)); ("timing_spec", (ECall
  "TimingSpec" [] [("base_cast_time", (EInt 3000)); ("animation_lock", (ESelf "__pct_caster_tax_ms")); ("gcd_base_recast_time", (EInt 4000));
  ("application_delay", (EInt 650))]))])].

(** simulator/game_data/class_skills/caster/pct.py lines 830-840: scenic_muse *)
Definition pct_m42 : pmethod := mkMethod "scenic_muse" []
  [SAsg "name" (EStr "Scenic Muse"); SRet (ECall "Skill" [] [("name", (EVar "name")); ("is_GCD", (EBool false)); ("timing_spec", (ECall "TimingSpec"
  [] [("base_cast_time", (EInt 0)); ("animation_lock", (ESelf "__base_animation_lock")); ("application_delay", (EInt 650))]))])].

(** simulator/game_data/class_skills/caster/pct.py lines 843-854: starry_sky_motif *)
Definition pct_m43 : pmethod := mkMethod "starry_sky_motif" []
  [SAsg "name" (EStr "Starry Sky Motif"); SRet (ECall "Skill" [] [("name", (EVar "name")); ("is_GCD", (EBool true)); ("timing_spec", (ECall
  "TimingSpec" [] [("base_cast_time", (EInt 3000)); ("animation_lock", (ESelf "__pct_caster_tax_ms")); ("gcd_base_recast_time", (EInt 4000));
  ("application_delay", (EInt 650))]))])].

(** simulator/game_data/class_skills/caster/pct.py lines 857-867: tempera_grassa *)
Definition pct_m44 : pmethod := mkMethod "tempera_grassa" []
  [SAsg "name" (EStr "Tempera Grassa"); SRet (ECall "Skill" [] [("name", (EVar "name")); ("is_GCD", (EBool false)); ("timing_spec", (ECall
  "TimingSpec" [] [("base_cast_time", (EInt 0)); ("animation_lock", (ESelf "__base_animation_lock")); ("application_delay", (EInt 650))]))])].

(** simulator/game_data/class_skills/caster/pct.py lines 870-883: claw_motif *)
Definition pct_m45 : pmethod := mkMethod "claw_motif" []
  [SIf (ELev OLt K96) [SRet ENone] []; SAsg "name" (EStr "Claw Motif"); SRet (ECall "Skill" [] [("name", (EVar "name")); ("is_GCD", (EBool true));
  ("timing_spec", (ECall "TimingSpec" [] [("base_cast_time", (EInt 3000)); ("animation_lock", (ESelf "__pct_caster_tax_ms")); ("gcd_base_recast_time",
  (EInt 4000)); ("application_delay", (EInt 650))]))])].

(** simulator/game_data/class_skills/caster/pct.py lines 886-899: maw_motif *)
Definition pct_m46 : pmethod := mkMethod "maw_motif" []
  [SIf (ELev OLt K96) [SRet ENone] []; SAsg "name" (EStr "Maw Motif"); SRet (ECall "Skill" [] [("name", (EVar "name")); ("is_GCD", (EBool true));
  ("timing_spec", (ECall "TimingSpec" [] [("base_cast_time", (EInt 3000)); ("animation_lock", (ESelf "__pct_caster_tax_ms")); ("gcd_base_recast_time",
  (EInt 4000)); ("application_delay", (EInt 650))]))])].

(** simulator/game_data/class_skills/caster/pct.py lines 22-47: __init__ after super().__init__ *)
Definition pct_init : list stmt :=
  [SAttr "_job_class" (EStr "PCT"); SAttr "__pct_caster_tax_ms" (EInt 100); SAttr "__base_animation_lock" (EInt 600); SAttr
  "__pct_instant_timing_spec" (ECall "TimingSpec" [] [("base_cast_time", (EInt 0)); ("animation_lock", (ESelf "__base_animation_lock"))]); SAttr
  "__aetherhue_skills" (ETup [(EStr "Starry Muse"); (EStr "Fire in Red"); (EStr "Aero in Green"); (EStr "Water in Blue"); (EStr "Fire II in Red");
  (EStr "Aero II in Green"); (EStr "Water II in Blue"); (EStr "Blizzard in Cyan"); (EStr "Blizzard II in Cyan"); (EStr "Stone in Yellow"); (EStr
  "Stone II in Yellow"); (EStr "Thunder in Magenta"); (EStr "Thunder II in Magenta"); (EStr "Holy in White"); (EStr "Comet in Black"); (EStr
  "Star Prism")])].

(** simulator/game_data/class_skills/caster/pct.py lines 20-899: class PctSkills; the decorated methods in the order of [dir] *)
Definition pct_class : pclass := mkClass [] pct_init
  [pct_m0; pct_m1; pct_m2; pct_m3; pct_m4; pct_m5; pct_m6; pct_m7; pct_m8; pct_m9; pct_m10; pct_m11; pct_m12; pct_m13; pct_m14; pct_m15; pct_m16;
  pct_m17; pct_m18; pct_m19; pct_m20; pct_m21; pct_m22; pct_m23; pct_m24; pct_m25; pct_m26; pct_m27; pct_m28; pct_m29; pct_m30; pct_m31; pct_m32;
  pct_m33; pct_m34; pct_m35; pct_m36; pct_m37; pct_m38; pct_m39; pct_m40; pct_m41; pct_m42; pct_m43; pct_m44; pct_m45; pct_m46]
  ["aero_ii_in_green"; "aero_in_freen"; "auto"; "blizzard_ii_in_cyan"; "blizzard_in_cyan"; "claw_motif"; "clawed_muse"; "comet_in_black";
  "creature_motif"; "fanged_muse"; "fire_ii_in_red"; "fire_in_red"; "hammer_brush"; "hammer_motif"; "hammer_stamp"; "holy_in_white";
  "landscape_motif"; "living_muse"; "maw_motif"; "mog_of_the_ages"; "polishing_hammer"; "pom_motif"; "pom_muse"; "rainbow_drip";
  "retribution_of_the_madeen"; "scenic_muse"; "smudge"; "star_prism"; "starry_muse"; "starry_sky_motif"; "steel_muse"; "stone_ii_in_yellow";
  "stone_in_yellow"; "striking_muse"; "subtractive_palette"; "swiftcast"; "tempera_coat"; "tempera_grassa"; "thunder_ii_in_magenta";
  "thunder_in_magenta"; "water_ii_in_blue"; "water_in_blue"; "weapon_motif"; "wing_motif"; "winged_muse"]
  ["hyperphantasia"]
  pct_data.
