(** * DNC: the shipped skill definitions.

    Generated by tools/gen_game_data.py from
    simulator/game_data/class_skills/ranged/dnc.py and simulator/game_data/class_skills/ranged/dnc_data.py. *)

From Coq Require Import ZArith List String.
From Verif Require Import Py.
Import ListNotations.
Open Scope string_scope.
Open Scope Z_scope.

(** simulator/game_data/class_skills/ranged/dnc_data.py lines 8-83, in dict-literal order *)
Definition dnc_data : data_table := [
  ("Cascade", [(90, [("potency", [(V655, (EInt 220)); (V70, (EInt 200))])]); (100, [("potency", [(V70, (EInt 220))])])]);
  ("Fountain", [(90, [("potency", [(V655, (EInt 280)); (V70, (EInt 260))]); ("potency_no_combo", [(V655, (EInt 100))])]); (100, [("potency", [(V70,
  (EInt 280))]); ("potency_no_combo", [(V70, (EInt 120))])])]);
  ("Windmill", [(90, [("potency", [(V655, (EInt 100))])]); (100, [("potency", [(V70, (EInt 100))])])]);
  ("Standard Finish", [(90, [("Double", [(V655, (EInt 720)); (V70, (EInt 800))]); ("Single", [(V655, (EInt 540))]); ("Zero", [(V655, (EInt 360))])]);
  (100, [("Double", [(V70, (EInt 850))]); ("Single", [(V70, (EInt 540))]); ("Zero", [(V70, (EInt 360))])])]);
  ("Reverse Cascade", [(90, [("potency", [(V655, (EInt 280)); (V70, (EInt 260))])]); (100, [("potency", [(V70, (EInt 280))])])]);
  ("Bladeshower", [(90, [("potency", [(V655, (EInt 140))]); ("potency_no_combo", [(V655, (EInt 100))])]); (100, [("potency", [(V70, (EInt 140))]);
  ("potency_no_combo", [(V70, (EInt 100))])])]);
  ("Devilment", [(90, [("duration", [(V655, (EBin BMul (EInt 20) (EInt 1000)))])]); (100, [("duration", [(V70, (EBin BMul (EInt 20) (EInt
  1000)))])])]);
  ("Fan Dance", [(90, [("potency", [(V655, (EInt 150))])]); (100, [("potency", [(V70, (EInt 150)); (V71, (EInt 180))])])]);
  ("Rising Windmill", [(90, [("potency", [(V655, (EInt 140))])]); (100, [("potency", [(V70, (EInt 140))])])]);
  ("Fountainfall", [(90, [("potency", [(V655, (EInt 340)); (V70, (EInt 320))])]); (100, [("potency", [(V70, (EInt 340))])])]);
  ("Bloodshower", [(90, [("potency", [(V655, (EInt 180))])]); (100, [("potency", [(V70, (EInt 180))])])]);
  ("Fan Dance II", [(90, [("potency", [(V655, (EInt 100))])]); (100, [("potency", [(V70, (EInt 100))])])]);
  ("Fan Dance III", [(90, [("potency", [(V655, (EInt 200))])]); (100, [("potency", [(V70, (EInt 200)); (V71, (EInt 220))])])]);
  ("Technical Finish", [(90, [("Quadruple", [(V655, (EInt 1200))]); ("Triple", [(V655, (EInt 900))]); ("Double", [(V655, (EInt 720))]); ("Single",
  [(V655, (EInt 540))]); ("Zero", [(V655, (EInt 350))])]); (100, [("Quadruple", [(V70, (EInt 1300))]); ("Triple", [(V70, (EInt 900))]); ("Double",
  [(V70, (EInt 720))]); ("Single", [(V70, (EInt 540))]); ("Zero", [(V655, (EInt 350))])])]);
  ("Saber Dance", [(90, [("potency", [(V655, (EInt 480)); (V70, (EInt 500))])]); (100, [("potency", [(V70, (EInt 520))])])]);
  ("Tillana", [(90, [("potency", [(V655, (EInt 360)); (V70, (EInt 600))])]); (100, [("potency", [(V70, (EInt 600))])])]);
  ("Finishing Move", [(100, [("potency", [(V70, (EInt 850))])])]);
  ("Fan Dance IV", [(90, [("potency", [(V655, (EInt 300))])]); (100, [("potency", [(V70, (EInt 300)); (V705, (EInt 420))])])]);
  ("Starfall Dance", [(90, [("potency", [(V655, (EInt 600))])]); (100, [("potency", [(V70, (EInt 600))])])]);
  ("Last Dance", [(100, [("potency", [(V70, (EInt 520))])])]);
  ("Dance of the Dawn", [(100, [("potency", [(V70, (EInt 1000))])])])].

(** simulator/game_data/class_skills/ranged/dnc.py lines 22-34: __get_standard_finish2_follow_up *)
Definition dnc_m0 : pmethod := mkMethod "__get_standard_finish2_follow_up" []
  [SAsg "name" (EStr "Standard Finish"); SRet (ECall "FollowUp" [] [("skill", (ECall "Skill" [] [("name", (EVar "name")); ("is_GCD", (EBool false));
  ("buff_spec", (ECall "StatusEffectSpec" [] [("damage_mult", (EFlt 21 20)); ("duration", (EInt 60000)); ("is_party_effect", (EBool true))]))]));
  ("delay_after_parent_application", (EInt 0)); ("primary_target_only", (EBool true))])].

(** simulator/game_data/class_skills/ranged/dnc.py lines 38-47: auto *)
Definition dnc_m1 : pmethod := mkMethod "auto" []
  [SAsg "name" (EStr "Auto"); SRet (ECall "Skill" [] [("name", (EVar "name")); ("is_GCD", (EBool false)); ("timing_spec", (ESelf "shot_timing_spec"));
  ("damage_spec", (ECall "DamageSpec" [] [("potency", (EInt 90)); ("damage_class", (EConst "DamageClass.AUTO")); ("trait_damage_mult_override", (EInt
  1))]))])].

(** simulator/game_data/class_skills/ranged/dnc.py lines 50-60: cascade *)
Definition dnc_m2 : pmethod := mkMethod "cascade" []
  [SAsg "name" (EStr "Cascade"); SRet (ECall "Skill" [] [("name", (EVar "name")); ("is_GCD", (EBool true)); ("combo_spec", (ETup [(ECall "ComboSpec"
  [] [])])); ("damage_spec", (ECall "DamageSpec" [] [("potency", (EPot (EVar "name")))])); ("timing_spec", (ECall "TimingSpec" [] [("base_cast_time",
  (EInt 0)); ("animation_lock", (EInt 650)); ("application_delay", (EInt 800))]))])].

(** simulator/game_data/class_skills/ranged/dnc.py lines 63-80: fountain *)
Definition dnc_m3 : pmethod := mkMethod "fountain" []
  [SAsg "name" (EStr "Fountain"); SRet (ECall "Skill" [] [("name", (EVar "name")); ("is_GCD", (EBool true)); ("combo_spec", (ETup [(ECall "ComboSpec"
  [] [("combo_actions", (ETup [(EStr "Cascade")]))])])); ("damage_spec", (EDict [((EConst "SimConsts.DEFAULT_CONDITION"), (ECall "DamageSpec" []
  [("potency", (EPot (EVar "name")))])); ((EStr "No Combo"), (ECall "DamageSpec" [] [("potency", (EPotNC (EVar "name")))]))])); ("timing_spec", (ECall
  "TimingSpec" [] [("base_cast_time", (EInt 0)); ("animation_lock", (EInt 650)); ("application_delay", (EInt 980))]))])].

(** simulator/game_data/class_skills/ranged/dnc.py lines 83-93: windmill *)
Definition dnc_m4 : pmethod := mkMethod "windmill" []
  [SAsg "name" (EStr "Windmill"); SRet (ECall "Skill" [] [("name", (EVar "name")); ("is_GCD", (EBool true)); ("combo_spec", (ETup [(ECall "ComboSpec"
  [] [])])); ("damage_spec", (ECall "DamageSpec" [] [("potency", (EPot (EVar "name")))])); ("timing_spec", (ECall "TimingSpec" [] [("base_cast_time",
  (EInt 0)); ("animation_lock", (EInt 650)); ("application_delay", (EInt 620))]))])].

(** simulator/game_data/class_skills/ranged/dnc.py lines 96-245: standard_finish *)
Definition dnc_m5 : pmethod := mkMethod "standard_finish" []
  [SAsg "name" (EStr "Standard Finish"); SAsg "res" (EList []); SAsg "_standard_finish2_follow_up" (EMeth "__get_standard_finish2_follow_up" [] []);
  SAsg "_standard_finish1_follow_up" (ECall "FollowUp" [] [("skill", (ECall "Skill" [] [("name", (EVar "name")); ("is_GCD", (EBool false));
  ("buff_spec", (ECall "StatusEffectSpec" [] [("damage_mult", (EFlt 51 50)); ("duration", (EInt 60000)); ("is_party_effect", (EBool true))]))]));
  ("delay_after_parent_application", (EInt 0)); ("primary_target_only", (EBool true))]); SAsg "name" (EStr "Standard Finish Remove Buff"); SAsg
  "_standard_remove_followup" (ECall "FollowUp" [(ECall "Skill" [] [("name", (EVar "name")); ("is_GCD", (EBool false)); ("buff_spec", (ECall
  "StatusEffectSpec" [] [("expires_status_effects", (ETup [(EStr "Standard Finish")])); ("is_party_effect", (EBool true))]))])]
  [("delay_after_parent_application", (EInt 0))]); SAsg "name" (EStr "Double Standard Finish"); SAsg "standard_finish_follow_up_damage_2" (ECall
  "FollowUp" [] [("skill", (ECall "Skill" [] [("name", (EVar "name")); ("damage_spec", (ECall "DamageSpec" [] [("potency", (EData (EStr
  "Standard Finish") (EStr "Double")))]))])); ("delay_after_parent_application", (EInt 530)); ("primary_target_only", (EBool false))]); SAsg "name"
  (EStr "Single Standard Finish"); SAsg "standard_finish_follow_up_damage_1" (ECall "FollowUp" [] [("skill", (ECall "Skill" [] [("name", (EVar
  "name")); ("damage_spec", (ECall "DamageSpec" [] [("potency", (EData (EStr "Standard Finish") (EStr "Single")))]))]));
  ("delay_after_parent_application", (EInt 530)); ("primary_target_only", (EBool false))]); SAsg "name" (EStr "Standard Finish"); SAsg
  "standard_finish_follow_up_damage_0" (ECall "FollowUp" [] [("skill", (ECall "Skill" [] [("name", (EVar "name")); ("damage_spec", (ECall "DamageSpec"
  [] [("potency", (EData (EStr "Standard Finish") (EStr "Zero")))]))])); ("delay_after_parent_application", (EInt 530)); ("primary_target_only",
  (EBool false))]); SAsg "name" (EStr "Double Standard Finish"); SApp "res" (ECall "Skill" [] [("name", (EVar "name")); ("is_GCD", (EBool true));
  ("has_aoe", (EBool true)); ("timing_spec", (EDict [((EConst "SimConsts.DEFAULT_CONDITION"), (ECall "TimingSpec" [] [("base_cast_time", (EInt 0));
  ("gcd_base_recast_time", (EInt 1500)); ("affected_by_speed_stat", (EBool false))])); ((EStr "Buff Only"), (ECall "TimingSpec" [] [("base_cast_time",
  (EInt 0)); ("gcd_base_recast_time", (EInt 0))])); ((EStr "Remove Buff"), (ECall "TimingSpec" [] [("base_cast_time", (EInt 0));
  ("gcd_base_recast_time", (EInt 0))]))])); ("follow_up_skills", (EDict [((EConst "SimConsts.DEFAULT_CONDITION"), (ETup [(EVar
  "standard_finish_follow_up_damage_2"); (EVar "_standard_finish2_follow_up")])); ((EStr "Buff Only"), (ETup [(EVar "_standard_finish2_follow_up")]));
  ((EStr "Remove Buff"), (ETup [(EVar "_standard_remove_followup")]))])); ("off_class_default_condition", (EStr "Buff Only"))]); SAsg "name" (EStr
  "Single Standard Finish"); SApp "res" (ECall "Skill" [] [("name", (EVar "name")); ("is_GCD", (EBool true)); ("has_aoe", (EBool true));
  ("timing_spec", (EDict [((EConst "SimConsts.DEFAULT_CONDITION"), (ECall "TimingSpec" [] [("base_cast_time", (EInt 0)); ("gcd_base_recast_time",
  (EInt 1500)); ("affected_by_speed_stat", (EBool false))])); ((EStr "Buff Only"), (ECall "TimingSpec" [] [("base_cast_time", (EInt 0));
  ("gcd_base_recast_time", (EInt 0))])); ((EStr "Remove Buff"), (ECall "TimingSpec" [] [("base_cast_time", (EInt 0)); ("gcd_base_recast_time", (EInt
  0))]))])); ("follow_up_skills", (EDict [((EConst "SimConsts.DEFAULT_CONDITION"), (ETup [(EVar "standard_finish_follow_up_damage_1"); (EVar
  "_standard_finish1_follow_up")])); ((EStr "Buff Only"), (ETup [(EVar "_standard_finish1_follow_up")])); ((EStr "Remove Buff"), (ETup [(EVar
  "_standard_remove_followup")]))])); ("off_class_default_condition", (EStr "Buff Only"))]); SAsg "name" (EStr "Standard Finish"); SApp "res" (ECall
  "Skill" [] [("name", (EVar "name")); ("is_GCD", (EBool true)); ("has_aoe", (EBool true)); ("timing_spec", (EDict [((EConst
  "SimConsts.DEFAULT_CONDITION"), (ECall "TimingSpec" [] [("base_cast_time", (EInt 0)); ("gcd_base_recast_time", (EInt 1500));
  ("affected_by_speed_stat", (EBool false))])); ((EStr "Buff Only"), (ECall "TimingSpec" [] [("base_cast_time", (EInt 0)); ("gcd_base_recast_time",
  (EInt 0))])); ((EStr "Remove Buff"), (ECall "TimingSpec" [] [("base_cast_time", (EInt 0)); ("gcd_base_recast_time", (EInt 0))]))]));
  ("follow_up_skills", (EDict [((EConst "SimConsts.DEFAULT_CONDITION"), (ETup [(EVar "standard_finish_follow_up_damage_2"); (EVar
  "_standard_finish2_follow_up")])); ((EStr "Buff Only"), (ETup [(EVar "_standard_finish2_follow_up")])); ((EStr "Remove Buff"), (ETup [(EVar
  "_standard_remove_followup")])); ((EStr "Log"), (ETup [(EVar "standard_finish_follow_up_damage_0")])); ((EStr "Buff Only, Log"), (ECall "tuple" []
  [])); ((EStr "Remove Buff, Log"), (ETup [(EVar "_standard_remove_followup")]))])); ("off_class_default_condition", (EStr "Buff Only"))]); SRet (EVar
  "res")].

(** simulator/game_data/class_skills/ranged/dnc.py lines 248-257: reverse_cascade *)
Definition dnc_m6 : pmethod := mkMethod "reverse_cascade" []
  [SAsg "name" (EStr "Reverse Cascade"); SRet (ECall "Skill" [] [("name", (EVar "name")); ("is_GCD", (EBool true)); ("damage_spec", (ECall
  "DamageSpec" [] [("potency", (EPot (EVar "name")))])); ("timing_spec", (ECall "TimingSpec" [] [("base_cast_time", (EInt 0)); ("animation_lock",
  (EInt 650)); ("application_delay", (EInt 620))]))])].

(** simulator/game_data/class_skills/ranged/dnc.py lines 260-278: bladeshower *)
Definition dnc_m7 : pmethod := mkMethod "bladeshower" []
  [SAsg "name" (EStr "Bladeshower"); SRet (ECall "Skill" [] [("name", (EVar "name")); ("is_GCD", (EBool true)); ("combo_spec", (ETup [(ECall
  "ComboSpec" [] [("combo_actions", (ETup [(EStr "Windmill")]))])])); ("damage_spec", (EDict [((EConst "SimConsts.DEFAULT_CONDITION"), (ECall
  "DamageSpec" [] [("potency", (EPot (EVar "name")))])); ((EStr "No Combo"), (ECall "DamageSpec" [] [("potency", (EPotNC (EVar "name")))]))]));
  ("timing_spec", (ECall "TimingSpec" [] [("base_cast_time", (EInt 0)); ("animation_lock", (EInt 650)); ("application_delay", (EInt 620))]));
  ("has_aoe", (EBool true))])].

(** simulator/game_data/class_skills/ranged/dnc.py lines 281-290: fan_dance *)
Definition dnc_m8 : pmethod := mkMethod "fan_dance" []
  [SAsg "name" (EStr "Fan Dance"); SRet (ECall "Skill" [] [("name", (EVar "name")); ("is_GCD", (EBool false)); ("damage_spec", (ECall "DamageSpec" []
  [("potency", (EPot (EVar "name")))])); ("timing_spec", (ECall "TimingSpec" [] [("base_cast_time", (EInt 0)); ("animation_lock", (EInt 650));
  ("application_delay", (EInt 620))]))])].

(** simulator/game_data/class_skills/ranged/dnc.py lines 293-303: rising_windmill *)
Definition dnc_m9 : pmethod := mkMethod "rising_windmill" []
  [SAsg "name" (EStr "Rising Windmill"); SRet (ECall "Skill" [] [("name", (EVar "name")); ("is_GCD", (EBool true)); ("damage_spec", (ECall
  "DamageSpec" [] [("potency", (EPot (EVar "name")))])); ("timing_spec", (ECall "TimingSpec" [] [("base_cast_time", (EInt 0)); ("animation_lock",
  (EInt 650)); ("application_delay", (EInt 620))])); ("has_aoe", (EBool true))])].

(** simulator/game_data/class_skills/ranged/dnc.py lines 306-315: fountainfaill *)
Definition dnc_m10 : pmethod := mkMethod "fountainfaill" []
  [SAsg "name" (EStr "Fountainfall"); SRet (ECall "Skill" [] [("name", (EVar "name")); ("is_GCD", (EBool true)); ("damage_spec", (ECall "DamageSpec"
  [] [("potency", (EPot (EVar "name")))])); ("timing_spec", (ECall "TimingSpec" [] [("base_cast_time", (EInt 0)); ("animation_lock", (EInt 650));
  ("application_delay", (EInt 1210))]))])].

(** simulator/game_data/class_skills/ranged/dnc.py lines 318-328: bloodshower *)
Definition dnc_m11 : pmethod := mkMethod "bloodshower" []
  [SAsg "name" (EStr "Bloodshower"); SRet (ECall "Skill" [] [("name", (EVar "name")); ("is_GCD", (EBool true)); ("damage_spec", (ECall "DamageSpec" []
  [("potency", (EPot (EVar "name")))])); ("timing_spec", (ECall "TimingSpec" [] [("base_cast_time", (EInt 0)); ("animation_lock", (EInt 650));
  ("application_delay", (EInt 620))])); ("has_aoe", (EBool true))])].

(** simulator/game_data/class_skills/ranged/dnc.py lines 331-341: fan_dance_ii *)
Definition dnc_m12 : pmethod := mkMethod "fan_dance_ii" []
  [SAsg "name" (EStr "Fan Dance II"); SRet (ECall "Skill" [] [("name", (EVar "name")); ("is_GCD", (EBool false)); ("damage_spec", (ECall "DamageSpec"
  [] [("potency", (EPot (EVar "name")))])); ("timing_spec", (ECall "TimingSpec" [] [("base_cast_time", (EInt 0)); ("animation_lock", (EInt 650));
  ("application_delay", (EInt 530))])); ("has_aoe", (EBool true))])].

(** simulator/game_data/class_skills/ranged/dnc.py lines 344-359: devilment *)
Definition dnc_m13 : pmethod := mkMethod "devilment" []
  [SAsg "name" (EStr "Devilment"); SRet (ECall "Skill" [] [("name", (EVar "name")); ("is_GCD", (EBool false)); ("timing_spec", (EDict [((EConst
  "SimConsts.DEFAULT_CONDITION"), (ESelf "instant_timing_spec")); ((EStr "Dance Partner"), (ECall "TimingSpec" [] [("base_cast_time", (EInt 0));
  ("animation_lock", (EInt 0))]))])); ("buff_spec", (ECall "StatusEffectSpec" [] [("crit_rate_add", (EFlt 1 5)); ("dh_rate_add", (EFlt 1 5));
  ("duration", (EData (EVar "name") (EStr "duration"))); ("is_party_effect", (EBool true))]))])].

(** simulator/game_data/class_skills/ranged/dnc.py lines 362-377: fan_dance_iii *)
Definition dnc_m14 : pmethod := mkMethod "fan_dance_iii" []
  [SAsg "name" (EStr "Fan Dance III"); SRet (ECall "Skill" [] [("name", (EVar "name")); ("is_GCD", (EBool false)); ("damage_spec", (EDict [((EConst
  "SimConsts.DEFAULT_CONDITION"), (ECall "DamageSpec" [] [("potency", (EPot (EVar "name")))]))])); ("timing_spec", (ECall "TimingSpec" []
  [("base_cast_time", (EInt 0)); ("animation_lock", (EInt 650)); ("application_delay", (EInt 620))])); ("has_aoe", (EBool true)); ("aoe_dropoff",
  (EFlt 1 2))])].

(** simulator/game_data/class_skills/ranged/dnc.py lines 380-654: technical_finish *)
Definition dnc_m15 : pmethod := mkMethod "technical_finish" []
  [SAsg "res" (EList []); SAsg "name" (EStr "Technical Finish"); SAsg "tech4_followup" (ECall "FollowUp" [(ECall "Skill" [] [("name", (EVar "name"));
  ("is_GCD", (EBool false)); ("buff_spec", (ECall "StatusEffectSpec" [] [("damage_mult", (EFlt 21 20)); ("duration", (ECall "int" [(EBin BMul (EFlt
  409 20) (EInt 1000))] [])); ("is_party_effect", (EBool true))]))])] [("delay_after_parent_application", (EInt 125)); ("primary_target_only", (EBool
  true))]); SAsg "tech3_followup" (ECall "FollowUp" [(ECall "Skill" [] [("name", (EVar "name")); ("is_GCD", (EBool false)); ("buff_spec", (ECall
  "StatusEffectSpec" [] [("damage_mult", (EFlt 103 100)); ("duration", (ECall "int" [(EBin BMul (EFlt 409 20) (EInt 1000))] [])); ("is_party_effect",
  (EBool true))]))])] [("delay_after_parent_application", (EInt 125)); ("primary_target_only", (EBool true))]); SAsg "tech2_followup" (ECall
  "FollowUp" [(ECall "Skill" [] [("name", (EVar "name")); ("is_GCD", (EBool false)); ("buff_spec", (ECall "StatusEffectSpec" [] [("damage_mult", (EFlt
  51 50)); ("duration", (ECall "int" [(EBin BMul (EFlt 409 20) (EInt 1000))] [])); ("is_party_effect", (EBool true))]))])]
  [("delay_after_parent_application", (EInt 125)); ("primary_target_only", (EBool true))]); SAsg "tech1_followup" (ECall "FollowUp" [(ECall "Skill" []
  [("name", (EVar "name")); ("is_GCD", (EBool false)); ("buff_spec", (ECall "StatusEffectSpec" [] [("damage_mult", (EFlt 101 100)); ("duration",
  (ECall "int" [(EBin BMul (EFlt 409 20) (EInt 1000))] [])); ("is_party_effect", (EBool true))]))])] [("delay_after_parent_application", (EInt 125));
  ("primary_target_only", (EBool true))]); SAsg "tech4_longest_followup" (ECall "FollowUp" [(ECall "Skill" [] [("name", (EVar "name")); ("is_GCD",
  (EBool false)); ("buff_spec", (ECall "StatusEffectSpec" [] [("damage_mult", (EFlt 21 20)); ("duration", (ECall "int" [(EBin BMul (EFlt 419 20) (EInt
  1000))] [])); ("is_party_effect", (EBool true))]))])] [("delay_after_parent_application", (EInt 125)); ("primary_target_only", (EBool true))]); SAsg
  "tech3_longest_followup" (ECall "FollowUp" [(ECall "Skill" [] [("name", (EVar "name")); ("is_GCD", (EBool false)); ("buff_spec", (ECall
  "StatusEffectSpec" [] [("damage_mult", (EFlt 103 100)); ("duration", (ECall "int" [(EBin BMul (EFlt 419 20) (EInt 1000))] [])); ("is_party_effect",
  (EBool true))]))])] [("delay_after_parent_application", (EInt 125)); ("primary_target_only", (EBool true))]); SAsg "tech2_longest_followup" (ECall
  "FollowUp" [(ECall "Skill" [] [("name", (EVar "name")); ("is_GCD", (EBool false)); ("buff_spec", (ECall "StatusEffectSpec" [] [("damage_mult", (EFlt
  51 50)); ("duration", (ECall "int" [(EBin BMul (EFlt 419 20) (EInt 1000))] [])); ("is_party_effect", (EBool true))]))])]
  [("delay_after_parent_application", (EInt 125)); ("primary_target_only", (EBool true))]); SAsg "tech1_longest_followup" (ECall "FollowUp" [(ECall
  "Skill" [] [("name", (EVar "name")); ("is_GCD", (EBool false)); ("buff_spec", (ECall "StatusEffectSpec" [] [("damage_mult", (EFlt 101 100));
  ("duration", (ECall "int" [(EBin BMul (EFlt 419 20) (EInt 1000))] [])); ("is_party_effect", (EBool true))]))])] [("delay_after_parent_application",
  (EInt 125)); ("primary_target_only", (EBool true))]); SAsg "name" (EStr "Technical Finish Remove buff"); SAsg "tech_remove_followup" (ECall
  "FollowUp" [(ECall "Skill" [] [("name", (EVar "name")); ("is_GCD", (EBool false)); ("buff_spec", (ECall "StatusEffectSpec" []
  [("expires_status_effects", (ETup [(EStr "Technical Finish")])); ("is_party_effect", (EBool true))]))])] [("delay_after_parent_application", (EInt
  0))]); SAsg "tech_finish_timing" (ECall "TimingSpec" [] [("base_cast_time", (EInt 0)); ("gcd_base_recast_time", (EInt 1500));
  ("affected_by_speed_stat", (EBool false)); ("application_delay", (EInt 535))]); SAsg "tech_finish_status_effect_only_timing" (ECall "TimingSpec" []
  [("base_cast_time", (EInt 0)); ("gcd_base_recast_time", (EInt 0)); ("application_delay", (EInt 0))]); SAsg "name" (EStr
  "Quadruple Technical Finish"); SApp "res" (ECall "Skill" [] [("name", (EVar "name")); ("is_GCD", (EBool true)); ("has_aoe", (EBool true));
  ("damage_spec", (EDict [((EConst "SimConsts.DEFAULT_CONDITION"), (ECall "DamageSpec" [] [("potency", (EData (EStr "Technical Finish") (EStr
  "Quadruple")))])); ((EStr "Buff Only"), ENone); ((EStr "Remove Buff"), ENone)])); ("timing_spec", (EDict [((EConst "SimConsts.DEFAULT_CONDITION"),
  (EVar "tech_finish_timing")); ((EStr "Buff Only"), (EVar "tech_finish_status_effect_only_timing")); ((EStr "Remove Buff"), (EVar
  "tech_finish_status_effect_only_timing"))])); ("follow_up_skills", (EDict [((EConst "SimConsts.DEFAULT_CONDITION"), (ETup [(EVar
  "tech4_followup")])); ((EStr "Longest"), (ETup [(EVar "tech4_longest_followup")])); ((EStr "Remove Buff"), (ETup [(EVar
  "tech_remove_followup")]))])); ("off_class_default_condition", (EStr "Buff Only"))]); SAsg "name" (EStr "Triple Technical Finish"); SApp "res"
  (ECall "Skill" [] [("name", (EVar "name")); ("is_GCD", (EBool true)); ("has_aoe", (EBool true)); ("damage_spec", (EDict [((EConst
  "SimConsts.DEFAULT_CONDITION"), (ECall "DamageSpec" [] [("potency", (EData (EStr "Technical Finish") (EStr "Triple")))])); ((EStr "Buff Only"),
  ENone); ((EStr "Remove Buff"), ENone)])); ("timing_spec", (EDict [((EConst "SimConsts.DEFAULT_CONDITION"), (EVar "tech_finish_timing")); ((EStr
  "Buff Only"), (EVar "tech_finish_status_effect_only_timing")); ((EStr "Remove Buff"), (EVar "tech_finish_status_effect_only_timing"))]));
  ("follow_up_skills", (EDict [((EConst "SimConsts.DEFAULT_CONDITION"), (ETup [(EVar "tech3_followup")])); ((EStr "Longest"), (ETup [(EVar
  "tech3_longest_followup")])); ((EStr "Remove Buff"), (ETup [(EVar "tech_remove_followup")]))])); ("off_class_default_condition", (EStr
  "Buff Only"))]); SAsg "name" (EStr "Double Technical Finish"); SApp "res" (ECall "Skill" [] [("name", (EVar "name")); ("is_GCD", (EBool true));
  ("has_aoe", (EBool true)); ("damage_spec", (EDict [((EConst "SimConsts.DEFAULT_CONDITION"), (ECall "DamageSpec" [] [("potency", (EData (EStr
  "Technical Finish") (EStr "Double")))])); ((EStr "Buff Only"), ENone); ((EStr "Remove Buff"), ENone)])); ("timing_spec", (EDict [((EConst
  "SimConsts.DEFAULT_CONDITION"), (EVar "tech_finish_timing")); ((EStr "Buff Only"), (EVar "tech_finish_status_effect_only_timing")); ((EStr
  "Remove Buff"), (EVar "tech_finish_status_effect_only_timing"))])); ("follow_up_skills", (EDict [((EConst "SimConsts.DEFAULT_CONDITION"), (ETup
  [(EVar "tech2_followup")])); ((EStr "Longest"), (ETup [(EVar "tech2_longest_followup")])); ((EStr "Remove Buff"), (ETup [(EVar
  "tech_remove_followup")]))])); ("off_class_default_condition", (EStr "Buff Only"))]); SAsg "name" (EStr "Single Technical Finish"); SApp "res"
  (ECall "Skill" [] [("name", (EVar "name")); ("is_GCD", (EBool true)); ("has_aoe", (EBool true)); ("damage_spec", (EDict [((EConst
  "SimConsts.DEFAULT_CONDITION"), (ECall "DamageSpec" [] [("potency", (EData (EStr "Technical Finish") (EStr "Single")))])); ((EStr "Buff Only"),
  ENone); ((EStr "Remove Buff"), ENone)])); ("timing_spec", (EDict [((EConst "SimConsts.DEFAULT_CONDITION"), (EVar "tech_finish_timing")); ((EStr
  "Buff Only"), (EVar "tech_finish_status_effect_only_timing")); ((EStr "Remove Buff"), (EVar "tech_finish_status_effect_only_timing"))]));
  ("follow_up_skills", (EDict [((EConst "SimConsts.DEFAULT_CONDITION"), (ETup [(EVar "tech1_followup")])); ((EStr "Longest"), (ETup [(EVar
  "tech1_longest_followup")])); ((EStr "Remove Buff"), (ETup [(EVar "tech_remove_followup")]))])); ("off_class_default_condition", (EStr
  "Buff Only"))]); SAsg "name" (EStr "Technical Finish"); SApp "res" (ECall "Skill" [] [("name", (EVar "name")); ("is_GCD", (EBool true)); ("has_aoe",
  (EBool true)); ("damage_spec", (EDict [((EConst "SimConsts.DEFAULT_CONDITION"), (ECall "DamageSpec" [] [("potency", (EInt 1200))])); ((EStr "Log"),
  (ECall "DamageSpec" [] [("potency", (EData (EStr "Technical Finish") (EStr "Zero")))])); ((EStr "Buff Only"), ENone); ((EStr "Remove Buff"),
  ENone)])); ("timing_spec", (EDict [((EConst "SimConsts.DEFAULT_CONDITION"), (EVar "tech_finish_timing")); ((EStr "Buff Only"), (EVar
  "tech_finish_status_effect_only_timing")); ((EStr "Remove Buff"), (EVar "tech_finish_status_effect_only_timing"))])); ("follow_up_skills", (EDict
  [((EConst "SimConsts.DEFAULT_CONDITION"), (ETup [(EVar "tech4_followup")])); ((EStr "Longest"), (ETup [(EVar "tech4_longest_followup")])); ((EStr
  "Log"), (ECall "tuple" [] [])); ((EStr "Log, Longest"), (ECall "tuple" [] [])); ((EStr "Remove Buff"), (ETup [(EVar "tech_remove_followup")]));
  ((EStr "Log, Remove Buff"), (ETup [(EVar "tech_remove_followup")]))])); ("off_class_default_condition", (EStr "Buff Only"))]); SRet (EVar "res")].

(** simulator/game_data/class_skills/ranged/dnc.py lines 657-672: saber_dance *)
Definition dnc_m16 : pmethod := mkMethod "saber_dance" []
  [SAsg "name" (EStr "Saber Dance"); SRet (ECall "Skill" [] [("name", (EVar "name")); ("is_GCD", (EBool true)); ("damage_spec", (EDict [((EConst
  "SimConsts.DEFAULT_CONDITION"), (ECall "DamageSpec" [] [("potency", (EPot (EVar "name")))]))])); ("timing_spec", (ECall "TimingSpec" []
  [("base_cast_time", (EInt 0)); ("animation_lock", (EInt 650)); ("application_delay", (EInt 440))])); ("has_aoe", (EBool true)); ("aoe_dropoff",
  (EFlt 1 2))])].

(** simulator/game_data/class_skills/ranged/dnc.py lines 675-695: tillana *)
Definition dnc_m17 : pmethod := mkMethod "tillana" []
  [SAsg "name" (EStr "Tillana"); SAsg "tillana_damage_follow_up" (ECall "FollowUp" [] [("skill", (ECall "Skill" [] [("name", (EVar "name"));
  ("damage_spec", (ECall "DamageSpec" [] [("potency", (EPot (EVar "name")))]))])); ("delay_after_parent_application", (EInt 840));
  ("primary_target_only", (EBool false))]); SRet (ECall "Skill" [] [("name", (EVar "name")); ("is_GCD", (EBool true)); ("has_aoe", (EBool true));
  ("timing_spec", (ECall "TimingSpec" [] [("base_cast_time", (EInt 0)); ("gcd_base_recast_time", (EInt 1500)); ("affected_by_speed_stat", (EBool
  false))])); ("follow_up_skills", (ETup [(EVar "tillana_damage_follow_up")]))])].

(** simulator/game_data/class_skills/ranged/dnc.py lines 698-724: finishing_move *)
Definition dnc_m18 : pmethod := mkMethod "finishing_move" []
  [SIf (ELev OLt K96) [SRet ENone] []; SAsg "name" (EStr "Finishing Move"); SAsg "finishing_move_damage_follow_up" (ECall "FollowUp" [] [("skill",
  (ECall "Skill" [] [("name", (EVar "name")); ("damage_spec", (ECall "DamageSpec" [] [("potency", (EPot (EVar "name")))]))]));
  ("delay_after_parent_application", (EInt 2050)); ("primary_target_only", (EBool false))]); SRet (ECall "Skill" [] [("name", (EVar "name"));
  ("is_GCD", (EBool true)); ("timing_spec", (ECall "TimingSpec" [] [("base_cast_time", (EInt 0)); ("gcd_base_recast_time", (EInt 1500));
  ("affected_by_speed_stat", (EBool false))])); ("follow_up_skills", (ETup [(EVar "finishing_move_damage_follow_up"); (EMeth
  "__get_standard_finish2_follow_up" [] [])])); ("has_aoe", (EBool true))])].

(** simulator/game_data/class_skills/ranged/dnc.py lines 727-742: fan_dance_iv *)
Definition dnc_m19 : pmethod := mkMethod "fan_dance_iv" []
  [SAsg "name" (EStr "Fan Dance IV"); SRet (ECall "Skill" [] [("name", (EVar "name")); ("is_GCD", (EBool false)); ("damage_spec", (EDict [((EConst
  "SimConsts.DEFAULT_CONDITION"), (ECall "DamageSpec" [] [("potency", (EPot (EVar "name")))]))])); ("timing_spec", (ECall "TimingSpec" []
  [("base_cast_time", (EInt 0)); ("animation_lock", (EInt 650)); ("application_delay", (EInt 320))])); ("has_aoe", (EBool true)); ("aoe_dropoff",
  (EFlt 1 2))])].

(** simulator/game_data/class_skills/ranged/dnc.py lines 745-762: starfall_dance *)
Definition dnc_m20 : pmethod := mkMethod "starfall_dance" []
  [SAsg "name" (EStr "Starfall Dance"); SRet (ECall "Skill" [] [("name", (EVar "name")); ("is_GCD", (EBool true)); ("damage_spec", (EDict [((EConst
  "SimConsts.DEFAULT_CONDITION"), (ECall "DamageSpec" [] [("potency", (EPot (EVar "name"))); ("guaranteed_crit", (EConst "ForcedCritOrDH.FORCE_YES"));
  ("guaranteed_dh", (EConst "ForcedCritOrDH.FORCE_YES"))]))])); ("timing_spec", (ECall "TimingSpec" [] [("base_cast_time", (EInt 0));
  ("animation_lock", (EInt 650)); ("application_delay", (EInt 890))])); ("has_aoe", (EBool true)); ("aoe_dropoff", (EFlt 3 4))])].

(** simulator/game_data/class_skills/ranged/dnc.py lines 765-782: last_dance *)
Definition dnc_m21 : pmethod := mkMethod "last_dance" []
  [SIf (ELev OLt K92) [SRet ENone] []; SAsg "name" (EStr "Last Dance"); SRet (ECall "Skill" [] [("name", (EVar "name")); ("is_GCD", (EBool true));
  ("damage_spec", (EDict [((EConst "SimConsts.DEFAULT_CONDITION"), (ECall "DamageSpec" [] [("potency", (EPot (EVar "name")))]))])); ("timing_spec",
  (ECall "TimingSpec" [] [("base_cast_time", (EInt 0)); ("animation_lock", (EInt 650)); ("application_delay", (EInt 1250))])); ("has_aoe", (EBool
  true)); ("aoe_dropoff", (EFlt 1 2))])].

(** simulator/game_data/class_skills/ranged/dnc.py lines 785-802: dance_of_the_dawn *)
Definition dnc_m22 : pmethod := mkMethod "dance_of_the_dawn" []
  [SIf (ELev OLt K100) [SRet ENone] []; SAsg "name" (EStr "Dance of the Dawn"); SRet (ECall "Skill" [] [("name", (EVar "name")); ("is_GCD", (EBool
  true)); ("damage_spec", (EDict [((EConst "SimConsts.DEFAULT_CONDITION"), (ECall "DamageSpec" [] [("potency", (EPot (EVar "name")))]))]));
  ("timing_spec", (ECall "TimingSpec" [] [("base_cast_time", (EInt 0)); ("animation_lock", (EInt 650)); ("application_delay", (EInt 2360))]));
  ("has_aoe", (EBool true)); ("aoe_dropoff", (EFlt 1 2))])].

(** simulator/game_data/class_skills/ranged/dnc.py lines 809-819: standard_step *)
Definition dnc_m23 : pmethod := mkMethod "standard_step" []
  [SAsg "name" (EStr "Standard Step"); SRet (ECall "Skill" [] [("name", (EVar "name")); ("is_GCD", (EBool true)); ("timing_spec", (ECall "TimingSpec"
  [] [("base_cast_time", (EInt 0)); ("gcd_base_recast_time", (EInt 1500)); ("affected_by_speed_stat", (EBool false))]))])].

(** simulator/game_data/class_skills/ranged/dnc.py lines 822-832: technical_step *)
Definition dnc_m24 : pmethod := mkMethod "technical_step" []
  [SAsg "name" (EStr "Technical Step"); SRet (ECall "Skill" [] [("name", (EVar "name")); ("is_GCD", (EBool true)); ("timing_spec", (ECall "TimingSpec"
  [] [("base_cast_time", (EInt 0)); ("gcd_base_recast_time", (EInt 1500)); ("affected_by_speed_stat", (EBool false))]))])].

(** simulator/game_data/class_skills/ranged/dnc.py lines 835-838: flourish *)
Definition dnc_m25 : pmethod := mkMethod "flourish" []
  [SRet (ECall "Skill" [] [("name", (EStr "Flourish")); ("is_GCD", (EBool false)); ("timing_spec", (ESelf "instant_timing_spec"))])].

(** simulator/game_data/class_skills/ranged/dnc.py lines 841-848: step_actions *)
Definition dnc_m26 : pmethod := mkMethod "step_actions" []
  [SAsg "res" (EList []); SAsg "step_timing" (ECall "TimingSpec" [] [("base_cast_time", (EInt 0)); ("gcd_base_recast_time", (EInt 1000));
  ("affected_by_speed_stat", (EBool false))]); SFor ["step_name"] false (EList [(EStr "Emboite"); (EStr "Entrechat"); (EStr "Jete"); (EStr
  "Pirouette"); (EStr "Step Action")]) [SApp "res" (ECall "Skill" [] [("name", (EVar "step_name")); ("is_GCD", (EBool true)); ("timing_spec", (EVar
  "step_timing"))])]; SRet (EVar "res")].

(** simulator/game_data/class_skills/ranged/dnc.py lines 18-20: __init__ after super().__init__ *)
Definition dnc_init : list stmt :=
  [SAttr "_job_class" (EStr "DNC")].

(** simulator/game_data/class_skills/ranged/dnc.py lines 17-848: class DncSkills; the decorated methods in the order of [dir] *)
Definition dnc_class : pclass := mkClass [] dnc_init
  [dnc_m0; dnc_m1; dnc_m2; dnc_m3; dnc_m4; dnc_m5; dnc_m6; dnc_m7; dnc_m8; dnc_m9; dnc_m10; dnc_m11; dnc_m12; dnc_m13; dnc_m14; dnc_m15; dnc_m16;
  dnc_m17; dnc_m18; dnc_m19; dnc_m20; dnc_m21; dnc_m22; dnc_m23; dnc_m24; dnc_m25; dnc_m26]
  ["auto"; "bladeshower"; "bloodshower"; "cascade"; "dance_of_the_dawn"; "devilment"; "fan_dance"; "fan_dance_ii"; "fan_dance_iii"; "fan_dance_iv";
  "finishing_move"; "flourish"; "fountain"; "fountainfaill"; "last_dance"; "reverse_cascade"; "rising_windmill"; "saber_dance"; "standard_finish";
  "standard_step"; "starfall_dance"; "step_actions"; "technical_finish"; "technical_step"; "tillana"; "windmill"]
  []
  dnc_data.
