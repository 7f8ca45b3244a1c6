(** * BLM: the shipped skill definitions.

    Generated by tools/gen_game_data.py from
    simulator/game_data/class_skills/caster/blm.py and simulator/game_data/class_skills/caster/blm_data.py. *)

From Coq Require Import ZArith List String.
From Verif Require Import Py.
Import ListNotations.
Open Scope string_scope.
Open Scope Z_scope.

(** simulator/game_data/class_skills/caster/blm_data.py lines 8-191, in dict-literal order *)
Definition blm_data : data_table := [
  ("Enochian", [(90, [("damage_mult", [(V655, (EFlt 123 100)); (V705, (EFlt 5 4))])]); (100, [("damage_mult", [(V70, (EFlt 13 10)); (V705, (EFlt 133
  100)); (V71, (EFlt 33 25))])])]);
  ("Thunder III", [(90, [("potency", [(V655, (EInt 50)); (V70, (EInt 120))]); ("potency_thundercloud", [(V655, (EBin BAdd (EInt 50) (EBin BMul (EInt
  35) (EInt 10))))]); ("cast_time", [(V655, (EInt 2500)); (V70, (EInt 0))])]); (100, [("potency", [(V70, (EInt 160)); (V705, (EInt 120))]);
  ("cast_time", [(V655, (EInt 2500)); (V70, (EInt 0))])])]);
  ("Thunder III (dot)", [(90, [("potency", [(V655, (EInt 35)); (V70, (EInt 50))]); ("duration", [(V655, (EBin BMul (EInt 30) (EInt 1000))); (V70,
  (EBin BMul (EInt 27) (EInt 1000)))])]); (100, [("potency", [(V70, (EInt 45)); (V705, (EInt 50))]); ("duration", [(V70, (EBin BMul (EInt 27) (EInt
  1000)))])])]);
  ("Thunder IV", [(90, [("potency", [(V655, (EInt 50)); (V70, (EInt 80))]); ("potency_thundercloud", [(V655, (EBin BAdd (EInt 50) (EBin BMul (EInt 20)
  (EInt 6))))]); ("cast_time", [(V655, (EInt 2500)); (V70, (EInt 0))])]); (100, [("potency", [(V70, (EInt 80))]); ("cast_time", [(V70, (EInt
  0))])])]);
  ("Thunder IV (dot)", [(90, [("potency", [(V655, (EInt 20)); (V70, (EInt 35))]); ("duration", [(V655, (EBin BMul (EInt 18) (EInt 1000))); (V70, (EBin
  BMul (EInt 21) (EInt 1000)))])]); (100, [("potency", [(V70, (EInt 35))]); ("duration", [(V70, (EBin BMul (EInt 21) (EInt 1000)))])])]);
  ("High Thunder (dot)", [(100, [("potency", [(V70, (EInt 55)); (V705, (EInt 60))]); ("duration", [(V70, (EBin BMul (EInt 30) (EInt 1000)))])])]);
  ("High Thunder II (dot)", [(100, [("potency", [(V70, (EInt 40))]); ("duration", [(V70, (EBin BMul (EInt 24) (EInt 1000)))])])]);
  ("Blizzard", [(90, [("potency", [(V655, (EInt 180))])]); (100, [("potency", [(V70, (EInt 180))])])]);
  ("Fire", [(90, [("potency", [(V655, (EInt 180))])]); (100, [("potency", [(V70, (EInt 180))])])]);
  ("Scathe", [(90, [("potency", [(V655, (EInt 100))])]); (100, [("potency", [(V70, (EInt 100))])])]);
  ("Fire III", [(90, [("potency", [(V655, (EInt 260)); (V70, (EInt 280))])]); (100, [("potency", [(V70, (EInt 280))])])]);
  ("Blizzard III", [(90, [("potency", [(V655, (EInt 260)); (V70, (EInt 280))])]); (100, [("potency", [(V70, (EInt 280))])])]);
  ("Freeze", [(90, [("potency", [(V655, (EInt 120))])]); (100, [("potency", [(V70, (EInt 120))])])]);
  ("Flare", [(90, [("potency", [(V655, (EInt 220)); (V70, (EInt 240))]); ("potency_enhanced", [(V655, (EInt 280))]); ("aoe_dropoff", [(V655, (EFlt 2
  5)); (V705, (EFlt 3 10))]); ("cast time", [(V655, (EInt 4000)); (V71, (EInt 3000))])]); (100, [("potency", [(V70, (EInt 240))]); ("aoe_dropoff",
  [(V70, (EFlt 2 5)); (V705, (EFlt 3 10))]); ("cast time", [(V70, (EInt 4000)); (V71, (EInt 3000))])])]);
  ("Blizzard IV", [(90, [("potency", [(V655, (EInt 310)); (V705, (EInt 320))])]); (100, [("potency", [(V70, (EInt 310)); (V705, (EInt 320))])])]);
  ("Fire IV", [(90, [("potency", [(V655, (EInt 310)); (V705, (EInt 320))])]); (100, [("potency", [(V70, (EInt 310)); (V705, (EInt 320))])])]);
  ("Foul", [(90, [("potency", [(V655, (EInt 600))])]); (100, [("potency", [(V70, (EInt 600))])])]);
  ("Despair", [(90, [("potency", [(V655, (EInt 340)); (V705, (EInt 350))]); ("cast time", [(V655, (EInt 3000))])]); (100, [("potency", [(V70, (EInt
  340)); (V705, (EInt 350))]); ("cast time", [(V70, (EInt 3000)); (V71, (EInt 0))])])]);
  ("Xenoglossy", [(90, [("potency", [(V655, (EInt 880))])]); (100, [("potency", [(V70, (EInt 880))])])]);
  ("High Fire II", [(90, [("potency", [(V655, (EInt 140)); (V70, (EInt 100))])]); (100, [("potency", [(V70, (EInt 100))])])]);
  ("High Blizzard II", [(90, [("potency", [(V655, (EInt 140)); (V70, (EInt 100))])]); (100, [("potency", [(V70, (EInt 100))])])]);
  ("Paradox", [(90, [("potency", [(V655, (EInt 500))])]); (100, [("potency", [(V70, (EInt 500)); (V705, (EInt 520))])])]);
  ("High Thunder", [(100, [("potency", [(V70, (EInt 200)); (V705, (EInt 150))])])]);
  ("High Thunder II", [(100, [("potency", [(V70, (EInt 100))])])]);
  ("Flare Star", [(100, [("potency", [(V70, (EInt 400))])])]);
  ("Firestarter", [(90, [("allowlist", [(V655, (ETup [(EStr "Fire")]))])]); (100, [("allowlist", [(V70, (ETup [(EStr "Fire III")]))])])]);
  ("Astral Fire", [(90, [("allowlist", [(V655, (ETup [(EStr "Blizzard"); (EStr "Transpose"); (EStr "Fire"); (EStr "Fire III"); (EStr "Fire IV"); (EStr
  "Blizzard IV"); (EStr "Blizzard III"); (EStr "Flare"); (EStr "Despair"); (EStr "High Fire II"); (EStr "High Blizzard II"); (EStr "Paradox")]))])]);
  (100, [("allowlist", [(V70, (ETup [(EStr "Blizzard"); (EStr "Transpose"); (EStr "Fire"); (EStr "Fire III"); (EStr "Fire IV"); (EStr "Blizzard IV");
  (EStr "Blizzard III"); (EStr "Flare"); (EStr "Despair"); (EStr "High Fire II"); (EStr "High Blizzard II"); (EStr "Paradox"); (EStr "Manafont");
  (EStr "Flare Star")]))])])]);
  ("Umbral Ice", [(90, [("allowlist", [(V655, (ETup [(EStr "Blizzard"); (EStr "Transpose"); (EStr "Fire"); (EStr "Fire III"); (EStr "Fire IV"); (EStr
  "Blizzard IV"); (EStr "Blizzard III"); (EStr "Flare"); (EStr "Despair"); (EStr "High Fire II"); (EStr "High Blizzard II"); (EStr "Paradox")]))])]);
  (100, [("allowlist", [(V70, (ETup [(EStr "Blizzard"); (EStr "Transpose"); (EStr "Fire"); (EStr "Fire III"); (EStr "Fire IV"); (EStr "Blizzard IV");
  (EStr "Blizzard III"); (EStr "Flare"); (EStr "Despair"); (EStr "High Fire II"); (EStr "High Blizzard II"); (EStr "Paradox"); (EStr "Manafont");
  (EStr "Flare Star")]))])])])].

(** simulator/game_data/class_skills/caster/blm.py lines 45-92: __get_fire_job_resource_spec *)
Definition blm_m0 : pmethod := mkMethod "__get_fire_job_resource_spec" []
  [SRet (EDict [((EConst "SimConsts.DEFAULT_CONDITION"), (ETup [(ECall "JobResourceSpec" [] [("name", (EStr "Astral Fire")); ("change", (EPos (EInt
  1)))])])); ((EStr "1 Astral Fire"), (ETup [(ECall "JobResourceSpec" [] [("name", (EStr "Astral Fire")); ("change", (EPos (EInt 1)));
  ("refreshes_duration_of_last_gained", (EBool true))])])); ((EStr "2 Astral Fire"), (ETup [(ECall "JobResourceSpec" [] [("name", (EStr
  "Astral Fire")); ("change", (EPos (EInt 1))); ("refreshes_duration_of_last_gained", (EBool true))])])); ((EStr "3 Astral Fire"), (ETup [(ECall
  "JobResourceSpec" [] [("name", (EStr "Astral Fire")); ("change", (EPos (EInt 1))); ("refreshes_duration_of_last_gained", (EBool true))])])); ((EStr
  "1 Umbral Ice"), (ETup [(ECall "JobResourceSpec" [] [("name", (EStr "Umbral Ice")); ("change", (ENeg (EConst "math.inf")));
  ("refreshes_duration_of_last_gained", (EBool true))])])); ((EStr "2 Umbral Ice"), (ETup [(ECall "JobResourceSpec" [] [("name", (EStr "Umbral Ice"));
  ("change", (ENeg (EConst "math.inf"))); ("refreshes_duration_of_last_gained", (EBool true))])])); ((EStr "3 Umbral Ice"), (ETup [(ECall
  "JobResourceSpec" [] [("name", (EStr "Umbral Ice")); ("change", (ENeg (EConst "math.inf"))); ("refreshes_duration_of_last_gained", (EBool
  true))])]))])].

(** simulator/game_data/class_skills/caster/blm.py lines 94-107: __get_enochian_buff_follow_up *)
Definition blm_m1 : pmethod := mkMethod "__get_enochian_buff_follow_up" []
  [SAsg "name" (EStr "Enochian"); SRet (ECall "FollowUp" [] [("skill", (ECall "Skill" [] [("name", (EVar "name")); ("is_GCD", (EBool false));
  ("buff_spec", (ECall "StatusEffectSpec" [] [("damage_mult", (EData (EVar "name") (EStr "damage_mult"))); ("duration", (EBin BMul (EInt 15) (EInt
  1000)))]))])); ("delay_after_parent_application", (EInt 0)); ("primary_target_only", (EBool true))])].

(** simulator/game_data/class_skills/caster/blm.py lines 110-117: astral_fire *)
Definition blm_m2 : pmethod := mkMethod "astral_fire" []
  [SAsg "name" (EStr "Astral Fire"); SAsg "job_resource_settings" (ECall "JobResourceSettings" [] [("max_value", (EInt 3)); ("expiry_from_last_gain",
  (EBin BMul (EInt 15) (EInt 1000))); ("skill_allowlist", (ESelf "__af_skill_allowlist"))]); SRet (ETup [(EVar "name"); (EVar
  "job_resource_settings")])].

(** simulator/game_data/class_skills/caster/blm.py lines 120-127: umbral_ice *)
Definition blm_m3 : pmethod := mkMethod "umbral_ice" []
  [SAsg "name" (EStr "Umbral Ice"); SAsg "job_resource_settings" (ECall "JobResourceSettings" [] [("max_value", (EInt 3)); ("expiry_from_last_gain",
  (EBin BMul (EInt 15) (EInt 1000))); ("skill_allowlist", (ESelf "__ui_skill_allowlist"))]); SRet (ETup [(EVar "name"); (EVar
  "job_resource_settings")])].

(** simulator/game_data/class_skills/caster/blm.py lines 129-130: get_status_effect_priority *)
Definition blm_m4 : pmethod := mkMethod "get_status_effect_priority" []
  [SRet (ETup [(EStr "Swiftcast"); (EStr "Triplecast")])].

(** simulator/game_data/class_skills/caster/blm.py lines 132-171: __get_enochian_damage_spec_cross *)
Definition blm_m5 : pmethod := mkMethod "__get_enochian_damage_spec_cross" [("base_potency", None); ("is_fire_spell", None)]
  [SAsg "res" (EDict []); SAsg "elem_strs" (EList [(EStr "1 Astral Fire"); (EStr "2 Astral Fire"); (EStr "3 Astral Fire"); (EStr "1 Umbral Ice");
  (EStr "2 Umbral Ice"); (EStr "3 Umbral Ice")]); SAsg "fire_potency_modifiers" (EDict [((EStr "1 Astral Fire"), (EFlt 7 5)); ((EStr "2 Astral Fire"),
  (EFlt 8 5)); ((EStr "3 Astral Fire"), (EFlt 9 5)); ((EStr "1 Umbral Ice"), (EFlt 9 10)); ((EStr "2 Umbral Ice"), (EFlt 4 5)); ((EStr
  "3 Umbral Ice"), (EFlt 7 10))]); SAsg "ice_potency_modifiers" (EDict [((EStr "1 Astral Fire"), (EFlt 9 10)); ((EStr "2 Astral Fire"), (EFlt 4 5));
  ((EStr "3 Astral Fire"), (EFlt 7 10)); ((EStr "1 Umbral Ice"), (EInt 1)); ((EStr "2 Umbral Ice"), (EInt 1)); ((EStr "3 Umbral Ice"), (EInt 1))]);
  SSet "res" [(EConst "SimConsts.DEFAULT_CONDITION")] (ECall "DamageSpec" [] [("potency", (EVar "base_potency"))]); SFor ["elem_str"] false (EVar
  "elem_strs") [SAsg "potency_modifier" (EIf (EVar "is_fire_spell") (EIdx (EVar "fire_potency_modifiers") (EVar "elem_str")) (EIdx (EVar
  "ice_potency_modifiers") (EVar "elem_str"))); SSet "res" [(EVar "elem_str")] (ECall "DamageSpec" [] [("potency", (EVar "base_potency"));
  ("single_damage_mult", (EVar "potency_modifier"))])]; SRet (EVar "res")].

(** simulator/game_data/class_skills/caster/blm.py lines 173-230: __get_enochian_timing_spec_cross *)
Definition blm_m6 : pmethod := mkMethod "__get_enochian_timing_spec_cross" [("base_cast_time", None); ("is_fire_spell", None); ("application_delay",
  Some (EInt 0))]
  [SAsg "res" (EDict []); SAsg "elem_strs" (EList [(EStr "1 Astral Fire"); (EStr "2 Astral Fire"); (EStr "3 Astral Fire"); (EStr "1 Umbral Ice");
  (EStr "2 Umbral Ice"); (EStr "3 Umbral Ice")]); SAsg "fire_cast_time_modifiers" (EDict [((EStr "1 Astral Fire"), (EInt 1)); ((EStr "2 Astral Fire"),
  (EInt 1)); ((EStr "3 Astral Fire"), (EInt 1)); ((EStr "1 Umbral Ice"), (EInt 1)); ((EStr "2 Umbral Ice"), (EInt 1)); ((EStr "3 Umbral Ice"), (EFlt 1
  2))]); SAsg "ice_cast_time_modifiers" (EDict [((EStr "1 Astral Fire"), (EInt 1)); ((EStr "2 Astral Fire"), (EInt 1)); ((EStr "3 Astral Fire"), (EFlt
  1 2)); ((EStr "1 Umbral Ice"), (EInt 1)); ((EStr "2 Umbral Ice"), (EInt 1)); ((EStr "3 Umbral Ice"), (EInt 1))]); SAsg "animation_lock_overflow"
  (ECall "max" [(EInt 0); (EBin BSub (ESelf "__base_animation_lock") (ECall "min" [(EVar "base_cast_time"); (EConst
  "GameConsts.DAMAGE_SNAPSHOT_TIME_BEFORE_CAST_FINISHES")] []))] []); SSet "res" [(EConst "SimConsts.DEFAULT_CONDITION")] (ECall "TimingSpec" []
  [("base_cast_time", (EVar "base_cast_time")); ("animation_lock", (EVar "animation_lock_overflow")); ("application_delay", (EVar
  "application_delay"))]); SFor ["elem_str"] false (EVar "elem_strs") [SAsg "cast_modifier" (EIf (EVar "is_fire_spell") (EIdx (EVar
  "fire_cast_time_modifiers") (EVar "elem_str")) (EIdx (EVar "ice_cast_time_modifiers") (EVar "elem_str"))); SAsg "animation_lock_overflow" (ECall
  "max" [(EInt 0); (EBin BSub (ESelf "__base_animation_lock") (ECall "min" [(ECall "int" [(EBin BMul (EVar "cast_modifier") (EVar "base_cast_time"))]
  []); (EConst "GameConsts.DAMAGE_SNAPSHOT_TIME_BEFORE_CAST_FINISHES")] []))] []); SSet "res" [(EVar "elem_str")] (ECall "TimingSpec" []
  [("base_cast_time", (ECall "int" [(EBin BMul (EVar "cast_modifier") (EVar "base_cast_time"))] [])); ("animation_lock", (EVar
  "animation_lock_overflow")); ("application_delay", (EVar "application_delay"))])]; SRet (EVar "res")].

(** simulator/game_data/class_skills/caster/blm.py lines 233-242: auto *)
Definition blm_m7 : pmethod := mkMethod "auto" []
  [SAsg "name" (EStr "Auto"); SRet (ECall "Skill" [] [("name", (EVar "name")); ("is_GCD", (EBool false)); ("timing_spec", (ESelf "auto_timing_spec"));
  ("damage_spec", (ECall "DamageSpec" [] [("potency", (EInt 90)); ("damage_class", (EConst "DamageClass.AUTO")); ("trait_damage_mult_override", (EInt
  1))]))])].

(** simulator/game_data/class_skills/caster/blm.py lines 244-262: __get_thunder_iii_dot_follow_up *)
Definition blm_m8 : pmethod := mkMethod "__get_thunder_iii_dot_follow_up" []
  [SAsg "name" (EStr "Thunder (dot)"); SRet (ECall "FollowUp" [] [("skill", (ECall "Skill" [] [("name", (EVar "name")); ("is_GCD", (EBool false));
  ("damage_spec", (ECall "DamageSpec" [] [("potency", (EPot (EStr "Thunder III (dot)"))); ("damage_class", (EConst "DamageClass.MAGICAL_DOT"))]))]));
  ("delay_after_parent_application", (EInt 0)); ("dot_duration", (EData (EStr "Thunder III (dot)") (EStr "duration"))); ("snapshot_buffs_with_parent",
  (EBool true)); ("snapshot_debuffs_with_parent", (EBool true))])].

(** simulator/game_data/class_skills/caster/blm.py lines 264-283: __get_thunder_iv_dot_follow_up *)
Definition blm_m9 : pmethod := mkMethod "__get_thunder_iv_dot_follow_up" []
  [SAsg "name" (EStr "Thunder (dot)"); SRet (ECall "FollowUp" [] [("skill", (ECall "Skill" [] [("name", (EVar "name")); ("is_GCD", (EBool false));
  ("damage_spec", (ECall "DamageSpec" [] [("potency", (EPot (EStr "Thunder IV (dot)"))); ("damage_class", (EConst "DamageClass.MAGICAL_DOT"))]))]));
  ("delay_after_parent_application", (EInt 0)); ("dot_duration", (EData (EStr "Thunder IV (dot)") (EStr "duration"))); ("snapshot_buffs_with_parent",
  (EBool true)); ("snapshot_debuffs_with_parent", (EBool true)); ("primary_target_only", (EBool false))])].

(** simulator/game_data/class_skills/caster/blm.py lines 286-345: blizzard *)
Definition blm_m10 : pmethod := mkMethod "blizzard" []
  [SAsg "name" (EStr "Blizzard"); SRet (ECall "Skill" [] [("name", (EVar "name")); ("is_GCD", (EBool true)); ("damage_spec", (EMeth
  "__get_enochian_damage_spec_cross" [] [("base_potency", (EPot (EVar "name"))); ("is_fire_spell", (EBool false))])); ("timing_spec", (EMeth
  "__get_enochian_timing_spec_cross" [] [("base_cast_time", (EInt 2500)); ("is_fire_spell", (EBool false)); ("application_delay", (EInt 840))]));
  ("job_resource_spec", (EDict [((EConst "SimConsts.DEFAULT_CONDITION"), (ETup [(ECall "JobResourceSpec" [] [("name", (EStr "Umbral Ice")); ("change",
  (EPos (EInt 1)))])])); ((EStr "1 Astral Fire"), (ETup [(ECall "JobResourceSpec" [] [("name", (EStr "Astral Fire")); ("change", (ENeg (EConst
  "math.inf"))); ("refreshes_duration_of_last_gained", (EBool true))])])); ((EStr "2 Astral Fire"), (ETup [(ECall "JobResourceSpec" [] [("name", (EStr
  "Astral Fire")); ("change", (ENeg (EConst "math.inf"))); ("refreshes_duration_of_last_gained", (EBool true))])])); ((EStr "3 Astral Fire"), (ETup
  [(ECall "JobResourceSpec" [] [("name", (EStr "Astral Fire")); ("change", (ENeg (EConst "math.inf"))); ("refreshes_duration_of_last_gained", (EBool
  true))])])); ((EStr "1 Umbral Ice"), (ETup [(ECall "JobResourceSpec" [] [("name", (EStr "Umbral Ice")); ("change", (EPos (EInt 1)));
  ("refreshes_duration_of_last_gained", (EBool true))])])); ((EStr "2 Umbral Ice"), (ETup [(ECall "JobResourceSpec" [] [("name", (EStr "Umbral Ice"));
  ("change", (EPos (EInt 1))); ("refreshes_duration_of_last_gained", (EBool true))])])); ((EStr "3 Umbral Ice"), (ETup [(ECall "JobResourceSpec" []
  [("name", (EStr "Umbral Ice")); ("change", (EPos (EInt 1))); ("refreshes_duration_of_last_gained", (EBool true))])]))])); ("follow_up_skills", (ETup
  [(ESelf "__enochian_buff_follow_up")]))])].

(** simulator/game_data/class_skills/caster/blm.py lines 347-359: __get_firestart_follow_up *)
Definition blm_m11 : pmethod := mkMethod "__get_firestart_follow_up" []
  [SAsg "name" (EStr "Firestarter"); SAsg "firestarter_buff" (ECall "Skill" [] [("name", (EVar "name")); ("is_GCD", (EBool false)); ("buff_spec",
  (ECall "StatusEffectSpec" [] [("add_to_skill_modifier_condition", (EBool true)); ("num_uses", (EInt 1)); ("duration", (EBin BMul (EInt 30) (EInt
  1000))); ("skill_allowlist", (EData (EVar "name") (EStr "allowlist")))]))]); SRet (ECall "FollowUp" [] [("skill", (EVar "firestarter_buff"));
  ("delay_after_parent_application", (EInt 10))])].

(** simulator/game_data/class_skills/caster/blm.py lines 362-377: firestarter *)
Definition blm_m12 : pmethod := mkMethod "firestarter" []
  [SAsg "name" (EStr "Firestarter"); SRet (ECall "Skill" [] [("name", (EVar "name")); ("is_GCD", (EBool false)); ("timing_spec", (ECall "TimingSpec"
  [] [("base_cast_time", (EInt 0)); ("animation_lock", (EInt 0)); ("application_delay", (EInt 0))])); ("buff_spec", (ECall "StatusEffectSpec" []
  [("add_to_skill_modifier_condition", (EBool true)); ("num_uses", (EInt 1)); ("duration", (EBin BMul (EInt 30) (EInt 1000))); ("skill_allowlist",
  (EData (EVar "name") (EStr "allowlist")))]))])].

(** simulator/game_data/class_skills/caster/blm.py lines 379-393: __get_thundercloud_follow_up *)
Definition blm_m13 : pmethod := mkMethod "__get_thundercloud_follow_up" []
  [SIf (EVer OGe V70) [SRet ENone] []; SAsg "name" (EStr "Thundercloud"); SAsg "thundercloud_buff" (ECall "Skill" [] [("name", (EVar "name"));
  ("is_GCD", (EBool false)); ("buff_spec", (ECall "StatusEffectSpec" [] [("add_to_skill_modifier_condition", (EBool true)); ("num_uses", (EInt 1));
  ("duration", (EBin BMul (EInt 40) (EInt 1000))); ("skill_allowlist", (ETup [(EStr "Thunder III"); (EStr "Thunder IV")]))]))]); SRet (ECall
  "FollowUp" [] [("skill", (EVar "thundercloud_buff")); ("delay_after_parent_application", (EInt 10))])].

(** simulator/game_data/class_skills/caster/blm.py lines 396-413: thundercloud *)
Definition blm_m14 : pmethod := mkMethod "thundercloud" []
  [SIf (EVer OGe V70) [SRet ENone] []; SAsg "name" (EStr "Thundercloud"); SRet (ECall "Skill" [] [("name", (EVar "name")); ("is_GCD", (EBool false));
  ("timing_spec", (ECall "TimingSpec" [] [("base_cast_time", (EInt 0)); ("animation_lock", (EInt 0)); ("application_delay", (EInt 0))]));
  ("buff_spec", (ECall "StatusEffectSpec" [] [("add_to_skill_modifier_condition", (EBool true)); ("num_uses", (EInt 1)); ("duration", (EBin BMul (EInt
  40) (EInt 1000))); ("skill_allowlist", (ETup [(EStr "Thunder III"); (EStr "Thunder IV")]))]))])].

(** simulator/game_data/class_skills/caster/blm.py lines 416-459: high_fire_ii *)
Definition blm_m15 : pmethod := mkMethod "high_fire_ii" []
  [SAsg "enhanced_flare_follow_up" (EIf (EVer OGe V70) ENone (ECall "FollowUp" [] [("skill", (ECall "Skill" [] [("name", (EStr "Enhanced"));
  ("is_GCD", (EBool false)); ("buff_spec", (ECall "StatusEffectSpec" [] [("add_to_skill_modifier_condition", (EBool true)); ("num_uses", (EInt 1));
  ("duration", (EConst "math.inf")); ("skill_allowlist", (ETup [(EStr "Flare")]))]))])); ("delay_after_parent_application", (EInt 10))])); SAsg "name"
  (EStr "High Fire II"); SRet (ECall "Skill" [] [("name", (EVar "name")); ("is_GCD", (EBool true)); ("damage_spec", (EMeth
  "__get_enochian_damage_spec_cross" [] [("base_potency", (EPot (EVar "name"))); ("is_fire_spell", (EBool true))])); ("timing_spec", (EMeth
  "__get_enochian_timing_spec_cross" [] [("base_cast_time", (EInt 3000)); ("is_fire_spell", (EBool true)); ("application_delay", (EInt 1160))]));
  ("job_resource_spec", (ETup [(ESelf "__clear_umbral_ice"); (ECall "JobResourceSpec" [] [("name", (EStr "Astral Fire")); ("change", (EPos (EInt 3)));
  ("refreshes_duration_of_last_gained", (EBool true))])])); ("follow_up_skills", (EIf (EVer OGe V70) (ETup [(ESelf "__enochian_buff_follow_up")])
  (ETup [(EVar "enhanced_flare_follow_up"); (ESelf "__enochian_buff_follow_up")]))); ("has_aoe", (EBool true))])].

(** simulator/game_data/class_skills/caster/blm.py lines 462-506: fire *)
Definition blm_m16 : pmethod := mkMethod "fire" []
  [SAsg "name" (EStr "Fire"); SAsg "firestarter_follow_up" (EMeth "__get_firestart_follow_up" [] []); SAsg "fire_job_resource_spec" (EMeth
  "__get_fire_job_resource_spec" [] []); SAsg "fire_damage_spec" (EMeth "__get_enochian_damage_spec_cross" [] [("base_potency", (EPot (EVar "name")));
  ("is_fire_spell", (EBool true))]); SAsg "fire_timing_spec" (EMeth "__get_enochian_timing_spec_cross" [] [("base_cast_time", (EInt 2500));
  ("is_fire_spell", (EBool true)); ("application_delay", (EInt 1030))]); SIf (EVer OLt V70) [SAsg "fire_keys" (ECall "tuple" [(EKeys (EVar
  "fire_damage_spec"))] []); SFor ["k"] false (EVar "fire_keys") [SAsg "assembled_str" (EIf (ECmp OEq (EVar "k") (EConst
  "SimConsts.DEFAULT_CONDITION")) (EStr "Sharpcast") (EStr "{k}, Sharpcast")); SSet "fire_damage_spec" [(EVar "assembled_str")] (EIdx (EVar
  "fire_damage_spec") (EVar "k")); SSet "fire_timing_spec" [(EVar "assembled_str")] (EIdx (EVar "fire_timing_spec") (EVar "k")); SSet
  "fire_job_resource_spec" [(EVar "assembled_str")] (EIdx (EVar "fire_job_resource_spec") (EVar "k"))]] []; SRet (ECall "Skill" [] [("name", (EVar
  "name")); ("is_GCD", (EBool true)); ("damage_spec", (EVar "fire_damage_spec")); ("timing_spec", (EVar "fire_timing_spec")); ("job_resource_spec",
  (EVar "fire_job_resource_spec")); ("follow_up_skills", (EIf (EVer OLt V70) (EDict [((EConst "SimConsts.DEFAULT_CONDITION"), (ETup [(ESelf
  "__enochian_buff_follow_up")])); ((EStr "Sharpcast"), (ETup [(EVar "firestarter_follow_up"); (ESelf "__enochian_buff_follow_up")]))]) (EDict
  [((EConst "SimConsts.DEFAULT_CONDITION"), (ETup [(ESelf "__enochian_buff_follow_up")])); ((EStr "Firestarter"), (ETup [(EVar
  "firestarter_follow_up"); (ESelf "__enochian_buff_follow_up")]))])))])].

(** simulator/game_data/class_skills/caster/blm.py lines 509-537: scathe *)
Definition blm_m17 : pmethod := mkMethod "scathe" []
  [SAsg "name" (EStr "Scathe"); SRet (ECall "Skill" [] [("name", (EVar "name")); ("is_GCD", (EBool true)); ("damage_spec", (EIf (EVer OGe V70) (EDict
  [((EConst "SimConsts.DEFAULT_CONDITION"), (ECall "DamageSpec" [] [("potency", (EPot (EVar "name")))])); ((EStr "2x"), (ECall "DamageSpec" []
  [("potency", (EBin BMul (EInt 2) (EPot (EVar "name"))))]))]) (EDict [((EConst "SimConsts.DEFAULT_CONDITION"), (ECall "DamageSpec" [] [("potency",
  (EPot (EVar "name")))])); ((EStr "2x"), (ECall "DamageSpec" [] [("potency", (EBin BMul (EInt 2) (EPot (EVar "name"))))])); ((EStr "Sharpcast"),
  (ECall "DamageSpec" [] [("potency", (EBin BMul (EInt 2) (EPot (EVar "name"))))]))]))); ("timing_spec", (ECall "TimingSpec" [] [("base_cast_time",
  (EInt 0)); ("animation_lock", (ESelf "__base_animation_lock")); ("application_delay", (EInt 670))]))])].

(** simulator/game_data/class_skills/caster/blm.py lines 540-575: fire_iii *)
Definition blm_m18 : pmethod := mkMethod "fire_iii" []
  [SAsg "name" (EStr "Fire III"); SAsg "fire_iii_damage_spec" (EMeth "__get_enochian_damage_spec_cross" [] [("base_potency", (EPot (EVar "name")));
  ("is_fire_spell", (EBool true))]); SAsg "fire_iii_timing_spec" (EMeth "__get_enochian_timing_spec_cross" [] [("base_cast_time", (EInt 3500));
  ("is_fire_spell", (EBool true)); ("application_delay", (EInt 1290))]); SAsg "fire_iii_keys" (ECall "tuple" [(EKeys (EVar "fire_iii_damage_spec"))]
  []); SFor ["k"] false (EVar "fire_iii_keys") [SAsg "assembled_str" (EIf (ECmp OEq (EVar "k") (EConst "SimConsts.DEFAULT_CONDITION")) (EStr
  "Firestarter") (EFmt [(EVar "k"); (EStr ", Firestarter")])); SSet "fire_iii_damage_spec" [(EVar "assembled_str")] (EIdx (EVar
  "fire_iii_damage_spec") (EVar "k")); SSet "fire_iii_timing_spec" [(EVar "assembled_str")] (ECall "TimingSpec" [] [("base_cast_time", (EInt 0));
  ("animation_lock", (ESelf "__base_animation_lock")); ("application_delay", (EInt 1290))])]; SRet (ECall "Skill" [] [("name", (EVar "name"));
  ("is_GCD", (EBool true)); ("damage_spec", (EVar "fire_iii_damage_spec")); ("timing_spec", (EVar "fire_iii_timing_spec")); ("job_resource_spec",
  (ETup [(ESelf "__clear_umbral_ice"); (ECall "JobResourceSpec" [] [("name", (EStr "Astral Fire")); ("change", (EPos (EInt 3)));
  ("refreshes_duration_of_last_gained", (EBool true))])])); ("follow_up_skills", (ETup [(ESelf "__enochian_buff_follow_up")]))])].

(** simulator/game_data/class_skills/caster/blm.py lines 578-597: blizzard_iii *)
Definition blm_m19 : pmethod := mkMethod "blizzard_iii" []
  [SAsg "name" (EStr "Blizzard III"); SRet (ECall "Skill" [] [("name", (EVar "name")); ("is_GCD", (EBool true)); ("damage_spec", (EMeth
  "__get_enochian_damage_spec_cross" [] [("base_potency", (EPot (EVar "name"))); ("is_fire_spell", (EBool false))])); ("timing_spec", (EMeth
  "__get_enochian_timing_spec_cross" [] [("base_cast_time", (EInt 3500)); ("is_fire_spell", (EBool false)); ("application_delay", (EInt 840))]));
  ("buff_spec", (ECall "StatusEffectSpec" [] [("expires_status_effects", (ETup [(EStr "Enhanced")]))])); ("job_resource_spec", (ETup [(ESelf
  "__clear_astral_fire"); (ECall "JobResourceSpec" [] [("name", (EStr "Umbral Ice")); ("change", (EPos (EInt 3)));
  ("refreshes_duration_of_last_gained", (EBool true))])])); ("follow_up_skills", (ETup [(ESelf "__enochian_buff_follow_up")]))])].

(** simulator/game_data/class_skills/caster/blm.py lines 600-612: freeze *)
Definition blm_m20 : pmethod := mkMethod "freeze" []
  [SAsg "name" (EStr "Freeze"); SRet (ECall "Skill" [] [("name", (EVar "name")); ("is_GCD", (EBool true)); ("damage_spec", (EMeth
  "__get_enochian_damage_spec_cross" [] [("base_potency", (EPot (EVar "name"))); ("is_fire_spell", (EBool false))])); ("timing_spec", (EMeth
  "__get_enochian_timing_spec_cross" [] [("base_cast_time", (EInt 2800)); ("is_fire_spell", (EBool false)); ("application_delay", (EInt 620))]));
  ("has_aoe", (EBool true))])].

(** simulator/game_data/class_skills/caster/blm.py lines 615-675: thunder_iii *)
Definition blm_m21 : pmethod := mkMethod "thunder_iii" []
  [SAsg "name" (EStr "Thunder III"); SAsg "thunderiii_follow_up" (EMeth "__get_thunder_iii_dot_follow_up" [] []); SAsg "thundercloud_follow_up" (EIf
  (EVer OGe V70) ENone (EMeth "__get_thundercloud_follow_up" [] [])); SRet (ECall "Skill" [] [("name", (EVar "name")); ("is_GCD", (EBool true));
  ("damage_spec", (EIf (EVer OGe V70) (ECall "DamageSpec" [] [("potency", (EPot (EVar "name")))]) (EDict [((EConst "SimConsts.DEFAULT_CONDITION"),
  (ECall "DamageSpec" [] [("potency", (EPot (EVar "name")))])); ((EStr "Thundercloud"), (ECall "DamageSpec" [] [("potency", (EData (EVar "name") (EStr
  "potency_thundercloud")))]))]))); ("timing_spec", (EIf (EVer OGe V70) (ECall "TimingSpec" [] [("base_cast_time", (EInt 2500)); ("animation_lock",
  (ESelf "__blm_caster_tax_ms")); ("application_delay", (EInt 1030))]) (EDict [((EConst "SimConsts.DEFAULT_CONDITION"), (ECall "TimingSpec" []
  [("base_cast_time", (EData (EVar "name") (EStr "cast_time"))); ("animation_lock", (ESelf "__blm_caster_tax_ms")); ("application_delay", (EInt
  1030))])); ((EStr "Thundercloud"), (ECall "TimingSpec" [] [("base_cast_time", (EInt 0)); ("animation_lock", (ESelf "__base_animation_lock"));
  ("application_delay", (EInt 1030))]))]))); ("follow_up_skills", (EIf (EVer OGe V70) (ETup [(EVar "thunderiii_follow_up")]) (EDict [((EConst
  "SimConsts.DEFAULT_CONDITION"), (ETup [(EVar "thunderiii_follow_up")])); ((EStr "Thundercloud"), (ETup [(EVar "thunderiii_follow_up")])); ((EStr
  "Sharpcast"), (ETup [(EVar "thunderiii_follow_up"); (EVar "thundercloud_follow_up")])); ((EStr "Sharpcast, Thundercloud"), (ETup [(EVar
  "thunderiii_follow_up"); (EVar "thundercloud_follow_up")]))])))])].

(** simulator/game_data/class_skills/caster/blm.py lines 678-735: flare *)
Definition blm_m22 : pmethod := mkMethod "flare" []
  [SAsg "name" (EStr "Flare"); SAsg "flare_elem_mults" (EDict [((EStr "1 Astral Fire"), (EFlt 7 5)); ((EStr "2 Astral Fire"), (EFlt 8 5)); ((EStr
  "3 Astral Fire"), (EFlt 9 5)); ((EStr "1 Umbral Ice"), (EFlt 9 10)); ((EStr "2 Umbral Ice"), (EFlt 4 5)); ((EStr "3 Umbral Ice"), (EFlt 7 10))]);
  SAsg "flare_damage_spec" (EMeth "__get_enochian_damage_spec_cross" [] [("base_potency", (EPot (EVar "name"))); ("is_fire_spell", (EBool true))]);
  SIf (EVer OLt V70) [SAsg "enhanced_flare_potency" (EData (EVar "name") (EStr "potency_enhanced")); SSet "flare_damage_spec" [(EStr "Enhanced")]
  (ECall "DamageSpec" [] [("potency", (EVar "enhanced_flare_potency"))]); SSet "flare_damage_spec" [(EStr "Enhanced, Triplecast")] (ECall "DamageSpec"
  [] [("potency", (EVar "enhanced_flare_potency"))]); SFor ["k"; "potency_modifier"] true (EItems (EVar "flare_elem_mults")) [SAsg "assemebled_str"
  (EFmt [(EVar "k"); (EStr ", Enhanced")]); SSet "flare_damage_spec" [(EVar "assemebled_str")] (ECall "DamageSpec" [] [("potency", (ECall "int" [(EBin
  BMul (EVar "potency_modifier") (EVar "enhanced_flare_potency"))] []))]); SAsg "assemebled_str" (EFmt [(EVar "k"); (EStr ", Enhanced, Triplecast")]);
  SSet "flare_damage_spec" [(EVar "assemebled_str")] (ECall "DamageSpec" [] [("potency", (ECall "int" [(EBin BMul (EVar "potency_modifier") (EVar
  "enhanced_flare_potency"))] []))])]] []; SAsg "flare_timing_spec" (EMeth "__get_enochian_timing_spec_cross" [] [("base_cast_time", (EData (EVar
  "name") (EStr "cast time"))); ("is_fire_spell", (EBool true)); ("application_delay", (EInt 1160))]); SAsg "flare_timing_keys" (ECall "tuple" [(EKeys
  (EVar "flare_timing_spec"))] []); SFor ["k"] false (EVar "flare_timing_keys") [SAsg "assembled_str" (EFmt [(EVar "k"); (EStr ", Enhanced")]); SSet
  "flare_timing_spec" [(EVar "assembled_str")] (EIdx (EVar "flare_timing_spec") (EVar "k"))]; SRet (ECall "Skill" [] [("name", (EVar "name"));
  ("is_GCD", (EBool true)); ("damage_spec", (EVar "flare_damage_spec")); ("timing_spec", (EVar "flare_timing_spec")); ("job_resource_spec", (ETup
  [(ESelf "__clear_umbral_ice"); (ECall "JobResourceSpec" [] [("name", (EStr "Astral Fire")); ("change", (EPos (EInt 3)));
  ("refreshes_duration_of_last_gained", (EBool true))])])); ("follow_up_skills", (ETup [(ESelf "__enochian_buff_follow_up")])); ("has_aoe", (EBool
  true)); ("aoe_dropoff", (EData (EVar "name") (EStr "aoe_dropoff")))])].

(** simulator/game_data/class_skills/caster/blm.py lines 738-749: ley_lines *)
Definition blm_m23 : pmethod := mkMethod "ley_lines" []
  [SAsg "name" (EStr "Ley Lines"); SRet (ECall "Skill" [] [("name", (EVar "name")); ("is_GCD", (EBool false)); ("timing_spec", (ESelf
  "__blm_instant_timing_spec")); ("buff_spec", (ECall "StatusEffectSpec" [] [("haste_time_reduction", (EFlt 3 20)); ("auto_attack_delay_reduction",
  (EFlt 3 20)); ("duration", (EBin BMul (EInt 30) (EInt 1000)))]))])].

(** simulator/game_data/class_skills/caster/blm.py lines 752-763: blizzard_iv *)
Definition blm_m24 : pmethod := mkMethod "blizzard_iv" []
  [SAsg "name" (EStr "Blizzard IV"); SRet (ECall "Skill" [] [("name", (EVar "name")); ("is_GCD", (EBool true)); ("damage_spec", (EMeth
  "__get_enochian_damage_spec_cross" [] [("base_potency", (EPot (EVar "name"))); ("is_fire_spell", (EBool false))])); ("timing_spec", (EMeth
  "__get_enochian_timing_spec_cross" [] [("base_cast_time", (EInt 2500)); ("is_fire_spell", (EBool false)); ("application_delay", (EInt 1160))]))])].

(** simulator/game_data/class_skills/caster/blm.py lines 766-777: fire_iv *)
Definition blm_m25 : pmethod := mkMethod "fire_iv" []
  [SAsg "name" (EStr "Fire IV"); SRet (ECall "Skill" [] [("name", (EVar "name")); ("is_GCD", (EBool true)); ("damage_spec", (EMeth
  "__get_enochian_damage_spec_cross" [] [("base_potency", (EPot (EVar "name"))); ("is_fire_spell", (EBool true))])); ("timing_spec", (EMeth
  "__get_enochian_timing_spec_cross" [] [("base_cast_time", (EInt 2800)); ("is_fire_spell", (EBool true)); ("application_delay", (EInt 1160))]))])].

(** simulator/game_data/class_skills/caster/blm.py lines 780-837: thunder_iv *)
Definition blm_m26 : pmethod := mkMethod "thunder_iv" []
  [SAsg "name" (EStr "Thunder IV"); SAsg "thunderiv_follow_up" (EMeth "__get_thunder_iv_dot_follow_up" [] []); SAsg "thundercloud_follow_up" (EMeth
  "__get_thundercloud_follow_up" [] []); SRet (ECall "Skill" [] [("name", (EVar "name")); ("is_GCD", (EBool true)); ("damage_spec", (EIf (EVer OGe
  V70) (ECall "DamageSpec" [] [("potency", (EPot (EVar "name")))]) (EDict [((EConst "SimConsts.DEFAULT_CONDITION"), (ECall "DamageSpec" []
  [("potency", (EPot (EVar "name")))])); ((EStr "Thundercloud"), (ECall "DamageSpec" [] [("potency", (EData (EVar "name") (EStr
  "potency_thundercloud")))]))]))); ("timing_spec", (EIf (EVer OGe V70) (ECall "TimingSpec" [] [("base_cast_time", (EInt 2500)); ("animation_lock",
  (ESelf "__blm_caster_tax_ms")); ("application_delay", (EInt 1160))]) (EDict [((EConst "SimConsts.DEFAULT_CONDITION"), (ECall "TimingSpec" []
  [("base_cast_time", (EData (EVar "name") (EStr "cast_time"))); ("animation_lock", (ESelf "__blm_caster_tax_ms")); ("application_delay", (EInt
  1160))])); ((EStr "Thundercloud"), (ECall "TimingSpec" [] [("base_cast_time", (EInt 0)); ("animation_lock", (ESelf "__blm_caster_tax_ms"));
  ("application_delay", (EInt 1160))]))]))); ("follow_up_skills", (EIf (EVer OGe V70) (ETup [(EVar "thunderiv_follow_up")]) (EDict [((EConst
  "SimConsts.DEFAULT_CONDITION"), (ETup [(EVar "thunderiv_follow_up")])); ((EStr "Thundercloud"), (ETup [(EVar "thunderiv_follow_up")])); ((EStr
  "Sharpcast"), (ETup [(EVar "thunderiv_follow_up"); (EVar "thundercloud_follow_up")])); ((EStr "Sharpcast, Thundercloud"), (ETup [(EVar
  "thunderiv_follow_up"); (EVar "thundercloud_follow_up")]))]))); ("has_aoe", (EBool true))])].

(** simulator/game_data/class_skills/caster/blm.py lines 840-853: foul *)
Definition blm_m27 : pmethod := mkMethod "foul" []
  [SAsg "name" (EStr "Foul"); SRet (ECall "Skill" [] [("name", (EVar "name")); ("is_GCD", (EBool true)); ("damage_spec", (ECall "DamageSpec" []
  [("potency", (EPot (EVar "name")))])); ("timing_spec", (ECall "TimingSpec" [] [("base_cast_time", (EInt 0)); ("animation_lock", (ESelf
  "__base_animation_lock")); ("application_delay", (EInt 1160))])); ("has_aoe", (EBool true)); ("aoe_dropoff", (EFlt 3 5))])].

(** simulator/game_data/class_skills/caster/blm.py lines 856-879: despair *)
Definition blm_m28 : pmethod := mkMethod "despair" []
  [SAsg "name" (EStr "Despair"); SRet (ECall "Skill" [] [("name", (EVar "name")); ("is_GCD", (EBool true)); ("damage_spec", (EMeth
  "__get_enochian_damage_spec_cross" [] [("base_potency", (EPot (EVar "name"))); ("is_fire_spell", (EBool true))])); ("timing_spec", (EMeth
  "__get_enochian_timing_spec_cross" [] [("base_cast_time", (EData (EVar "name") (EStr "cast time"))); ("is_fire_spell", (EBool true));
  ("application_delay", (EInt 490))])); ("job_resource_spec", (ETup [(ESelf "__clear_umbral_ice"); (ECall "JobResourceSpec" [] [("name", (EStr
  "Astral Fire")); ("change", (EPos (EInt 3))); ("refreshes_duration_of_last_gained", (EBool true))])])); ("follow_up_skills", (ETup [(ESelf
  "__enochian_buff_follow_up")]))])].

(** simulator/game_data/class_skills/caster/blm.py lines 882-893: xenoglossys *)
Definition blm_m29 : pmethod := mkMethod "xenoglossys" []
  [SAsg "name" (EStr "Xenoglossy"); SRet (ECall "Skill" [] [("name", (EVar "name")); ("is_GCD", (EBool true)); ("damage_spec", (ECall "DamageSpec" []
  [("potency", (EPot (EVar "name")))])); ("timing_spec", (ECall "TimingSpec" [] [("base_cast_time", (EInt 0)); ("animation_lock", (ESelf
  "__base_animation_lock")); ("application_delay", (EInt 620))]))])].

(** simulator/game_data/class_skills/caster/blm.py lines 896-916: high_blizzard_ii *)
Definition blm_m30 : pmethod := mkMethod "high_blizzard_ii" []
  [SAsg "name" (EStr "High Blizzard II"); SRet (ECall "Skill" [] [("name", (EVar "name")); ("is_GCD", (EBool true)); ("damage_spec", (EMeth
  "__get_enochian_damage_spec_cross" [] [("base_potency", (EPot (EVar "name"))); ("is_fire_spell", (EBool false))])); ("timing_spec", (EMeth
  "__get_enochian_timing_spec_cross" [] [("base_cast_time", (EInt 3000)); ("is_fire_spell", (EBool false)); ("application_delay", (EInt 1160))]));
  ("buff_spec", (ECall "StatusEffectSpec" [] [("expires_status_effects", (ETup [(EStr "Enhanced")]))])); ("job_resource_spec", (ETup [(ESelf
  "__clear_astral_fire"); (ECall "JobResourceSpec" [] [("name", (EStr "Umbral Ice")); ("change", (EPos (EInt 3)));
  ("refreshes_duration_of_last_gained", (EBool true))])])); ("follow_up_skills", (ETup [(ESelf "__enochian_buff_follow_up")])); ("has_aoe", (EBool
  true))])].

(** simulator/game_data/class_skills/caster/blm.py lines 919-1033: paradox *)
Definition blm_m31 : pmethod := mkMethod "paradox" []
  [SAsg "name" (EStr "Paradox"); SAsg "paradox_base_timing_spec" (EIf (EVer OLt V70) (ECall "TimingSpec" [] [("base_cast_time", (EInt 2500));
  ("animation_lock", (ESelf "__blm_caster_tax_ms")); ("application_delay", (EInt 670))]) ENone); SAsg "paradox_umbral_timing_spec" (EIf (EVer OLt V70)
  (ECall "TimingSpec" [] [("base_cast_time", (EInt 0)); ("animation_lock", (ESelf "__base_animation_lock")); ("application_delay", (EInt 670))])
  ENone); SAsg "firestarter_follow_up" (EMeth "__get_firestart_follow_up" [] []); SRet (ECall "Skill" [] [("name", (EVar "name")); ("is_GCD", (EBool
  true)); ("damage_spec", (ECall "DamageSpec" [] [("potency", (EPot (EVar "name")))])); ("timing_spec", (EIf (EVer OLt V70) (EDict [((EConst
  "SimConsts.DEFAULT_CONDITION"), (EVar "paradox_base_timing_spec")); ((EStr "1 Astral Fire"), (EVar "paradox_base_timing_spec")); ((EStr
  "2 Astral Fire"), (EVar "paradox_base_timing_spec")); ((EStr "3 Astral Fire"), (EVar "paradox_base_timing_spec")); ((EStr "1 Umbral Ice"), (EVar
  "paradox_umbral_timing_spec")); ((EStr "2 Umbral Ice"), (EVar "paradox_umbral_timing_spec")); ((EStr "3 Umbral Ice"), (EVar
  "paradox_umbral_timing_spec"))]) (ECall "TimingSpec" [] [("base_cast_time", (EInt 0)); ("animation_lock", (ESelf "__base_animation_lock"));
  ("application_delay", (EInt 670))]))); ("job_resource_spec", (EDict [((EConst "SimConsts.DEFAULT_CONDITION"), (ECall "tuple" [] [])); ((EStr
  "1 Astral Fire"), (ETup [(ECall "JobResourceSpec" [] [("name", (EStr "Astral Fire")); ("change", (EPos (EInt 1)));
  ("refreshes_duration_of_last_gained", (EBool true))])])); ((EStr "2 Astral Fire"), (ETup [(ECall "JobResourceSpec" [] [("name", (EStr
  "Astral Fire")); ("change", (EPos (EInt 1))); ("refreshes_duration_of_last_gained", (EBool true))])])); ((EStr "3 Astral Fire"), (ETup [(ECall
  "JobResourceSpec" [] [("name", (EStr "Astral Fire")); ("change", (EPos (EInt 1))); ("refreshes_duration_of_last_gained", (EBool true))])])); ((EStr
  "1 Umbral Ice"), (ETup [(ECall "JobResourceSpec" [] [("name", (EStr "Umbral Ice")); ("change", (EPos (EInt 1)));
  ("refreshes_duration_of_last_gained", (EBool true))])])); ((EStr "2 Umbral Ice"), (ETup [(ECall "JobResourceSpec" [] [("name", (EStr "Umbral Ice"));
  ("change", (EPos (EInt 1))); ("refreshes_duration_of_last_gained", (EBool true))])])); ((EStr "3 Umbral Ice"), (ETup [(ECall "JobResourceSpec" []
  [("name", (EStr "Umbral Ice")); ("change", (EPos (EInt 1))); ("refreshes_duration_of_last_gained", (EBool true))])]))])); ("follow_up_skills", (EIf
  (EVer OGe V70) (EDict [((EConst "SimConsts.DEFAULT_CONDITION"), (ETup [(ESelf "__enochian_buff_follow_up")])); ((EStr "1 Astral Fire"), (ETup
  [(ESelf "__enochian_buff_follow_up"); (EVar "firestarter_follow_up")])); ((EStr "2 Astral Fire"), (ETup [(ESelf "__enochian_buff_follow_up"); (EVar
  "firestarter_follow_up")])); ((EStr "3 Astral Fire"), (ETup [(ESelf "__enochian_buff_follow_up"); (EVar "firestarter_follow_up")]))]) (EDict
  [((EConst "SimConsts.DEFAULT_CONDITION"), (ETup [(ESelf "__enochian_buff_follow_up")])); ((EStr "Sharpcast"), (ETup [(EVar "firestarter_follow_up");
  (ESelf "__enochian_buff_follow_up")]))])))])].

(** simulator/game_data/class_skills/caster/blm.py lines 1036-1067: high_thunder *)
Definition blm_m32 : pmethod := mkMethod "high_thunder" []
  [SIf (ELev OLt K92) [SRet ENone] []; SAsg "high_thunder_follow_up" (ECall "FollowUp" [] [("skill", (ECall "Skill" [] [("name", (EStr
  "Thunder (dot)")); ("is_GCD", (EBool false)); ("damage_spec", (ECall "DamageSpec" [] [("potency", (EPot (EStr "High Thunder (dot)")));
  ("damage_class", (EConst "DamageClass.MAGICAL_DOT"))]))])); ("delay_after_parent_application", (EInt 0)); ("dot_duration", (EData (EStr
  "High Thunder (dot)") (EStr "duration"))); ("snapshot_buffs_with_parent", (EBool true)); ("snapshot_debuffs_with_parent", (EBool true))]); SAsg
  "name" (EStr "High Thunder"); SRet (ECall "Skill" [] [("name", (EVar "name")); ("is_GCD", (EBool true)); ("damage_spec", (ECall "DamageSpec" []
  [("potency", (EPot (EVar "name")))])); ("timing_spec", (ECall "TimingSpec" [] [("base_cast_time", (EInt 2500)); ("animation_lock", (ESelf
  "__blm_caster_tax_ms")); ("application_delay", (EInt 760))])); ("follow_up_skills", (ETup [(EVar "high_thunder_follow_up")]))])].

(** simulator/game_data/class_skills/caster/blm.py lines 1070-1102: high_thunder_ii *)
Definition blm_m33 : pmethod := mkMethod "high_thunder_ii" []
  [SIf (ELev OLt K92) [SRet ENone] []; SAsg "high_thunder_ii_follow_up" (ECall "FollowUp" [] [("skill", (ECall "Skill" [] [("name", (EStr
  "Thunder (dot)")); ("is_GCD", (EBool false)); ("damage_spec", (ECall "DamageSpec" [] [("potency", (EPot (EStr "High Thunder II (dot)")));
  ("damage_class", (EConst "DamageClass.MAGICAL_DOT"))]))])); ("delay_after_parent_application", (EInt 0)); ("dot_duration", (EData (EStr
  "High Thunder II (dot)") (EStr "duration"))); ("snapshot_buffs_with_parent", (EBool true)); ("snapshot_debuffs_with_parent", (EBool true));
  ("primary_target_only", (EBool false))]); SAsg "name" (EStr "High Thunder II"); SRet (ECall "Skill" [] [("name", (EVar "name")); ("is_GCD", (EBool
  true)); ("damage_spec", (ECall "DamageSpec" [] [("potency", (EPot (EVar "name")))])); ("timing_spec", (ECall "TimingSpec" [] [("base_cast_time",
  (EInt 2500)); ("animation_lock", (ESelf "__blm_caster_tax_ms")); ("application_delay", (EInt 760))])); ("follow_up_skills", (ETup [(EVar
  "high_thunder_ii_follow_up")])); ("has_aoe", (EBool true))])].

(** simulator/game_data/class_skills/caster/blm.py lines 1105-1122: flare_star *)
Definition blm_m34 : pmethod := mkMethod "flare_star" []
  [SIf (ELev OLt K100) [SRet ENone] []; SAsg "name" (EStr "Flare Star"); SAsg "flare_star_damage_spec" (EMeth "__get_enochian_damage_spec_cross" []
  [("base_potency", (EPot (EVar "name"))); ("is_fire_spell", (EBool true))]); SAsg "flare_star_timing_spec" (EMeth "__get_enochian_timing_spec_cross"
  [] [("base_cast_time", (EInt 3000)); ("is_fire_spell", (EBool true)); ("application_delay", (EInt 620))]); SRet (ECall "Skill" [] [("name", (EVar
  "name")); ("is_GCD", (EBool true)); ("damage_spec", (EVar "flare_star_damage_spec")); ("timing_spec", (EVar "flare_star_timing_spec")); ("has_aoe",
  (EBool true)); ("aoe_dropoff", (EFlt 13 20))])].

(** simulator/game_data/class_skills/caster/blm.py lines 1125-1172: swiftcast *)
Definition blm_m35 : pmethod := mkMethod "swiftcast" []
  [SAsg "name" (EStr "Swiftcast"); SRet (ECall "Skill" [] [("name", (EVar "name")); ("is_GCD", (EBool false)); ("timing_spec", (ESelf
  "__blm_instant_timing_spec")); ("buff_spec", (ECall "StatusEffectSpec" [] [("flat_cast_time_reduction", (EConst "math.inf")); ("duration", (EBin
  BMul (EInt 10) (EInt 1000))); ("num_uses", (EInt 1)); ("skill_allowlist", (EIf (EVer OGe V71) (ETup [(EStr "Thunder III"); (EStr "Thunder IV");
  (EStr "Blizzard"); (EStr "High Blizzard II"); (EStr "Blizzard III"); (EStr "Blizzard IV"); (EStr "Freeze"); (EStr "Fire"); (EStr "High Fire II");
  (EStr "Fire III"); (EStr "Fire IV"); (EStr "Flare"); (EStr "Paradox"); (EStr "Flare Star")]) (ETup [(EStr "Thunder III"); (EStr "Thunder IV"); (EStr
  "Blizzard"); (EStr "High Blizzard II"); (EStr "Blizzard III"); (EStr "Blizzard IV"); (EStr "Freeze"); (EStr "Fire"); (EStr "High Fire II"); (EStr
  "Fire III"); (EStr "Fire IV"); (EStr "Despair"); (EStr "Flare"); (EStr "Paradox"); (EStr "Flare Star")])))]))])].

(** simulator/game_data/class_skills/caster/blm.py lines 1175-1222: triplecast *)
Definition blm_m36 : pmethod := mkMethod "triplecast" []
  [SAsg "name" (EStr "Triplecast"); SRet (ECall "Skill" [] [("name", (EVar "name")); ("is_GCD", (EBool false)); ("timing_spec", (ESelf
  "__blm_instant_timing_spec")); ("buff_spec", (ECall "StatusEffectSpec" [] [("flat_cast_time_reduction", (EConst "math.inf")); ("duration", (EBin
  BMul (EInt 10) (EInt 1000))); ("num_uses", (EInt 3)); ("skill_allowlist", (EIf (EVer OGe V71) (ETup [(EStr "Thunder III"); (EStr "Thunder IV");
  (EStr "Blizzard"); (EStr "High Blizzard II"); (EStr "Blizzard III"); (EStr "Blizzard IV"); (EStr "Freeze"); (EStr "Fire"); (EStr "High Fire II");
  (EStr "Fire III"); (EStr "Fire IV"); (EStr "Flare"); (EStr "Paradox"); (EStr "Flare Star")]) (ETup [(EStr "Thunder III"); (EStr "Thunder IV"); (EStr
  "Blizzard"); (EStr "High Blizzard II"); (EStr "Blizzard III"); (EStr "Blizzard IV"); (EStr "Freeze"); (EStr "Fire"); (EStr "High Fire II"); (EStr
  "Fire III"); (EStr "Fire IV"); (EStr "Despair"); (EStr "Flare"); (EStr "Paradox"); (EStr "Flare Star")])))]))])].

(** simulator/game_data/class_skills/caster/blm.py lines 1225-1299: transpose *)
Definition blm_m37 : pmethod := mkMethod "transpose" []
  [SAsg "name" (EStr "Transpose"); SRet (ECall "Skill" [] [("name", (EVar "name")); ("is_GCD", (EBool false)); ("timing_spec", (ESelf
  "__blm_instant_timing_spec")); ("buff_spec", (EIf (EVer OGe V70) ENone (EDict [((EConst "SimConsts.DEFAULT_CONDITION"), ENone); ((EStr
  "1 Umbral Ice"), (ECall "StatusEffectSpec" [] [("expires_status_effects", (ETup [(EStr "Enhanced")]))])); ((EStr "2 Umbral Ice"), (ECall
  "StatusEffectSpec" [] [("expires_status_effects", (ETup [(EStr "Enhanced")]))])); ((EStr "3 Umbral Ice"), (ECall "StatusEffectSpec" []
  [("expires_status_effects", (ETup [(EStr "Enhanced")]))]))]))); ("job_resource_spec", (EDict [((EConst "SimConsts.DEFAULT_CONDITION"), (ECall
  "tuple" [] [])); ((EStr "1 Astral Fire"), (ETup [(ESelf "__clear_astral_fire"); (ECall "JobResourceSpec" [] [("name", (EStr "Umbral Ice"));
  ("change", (EPos (EInt 1))); ("refreshes_duration_of_last_gained", (EBool true))])])); ((EStr "2 Astral Fire"), (ETup [(ESelf
  "__clear_astral_fire"); (ECall "JobResourceSpec" [] [("name", (EStr "Umbral Ice")); ("change", (EPos (EInt 1)));
  ("refreshes_duration_of_last_gained", (EBool true))])])); ((EStr "3 Astral Fire"), (ETup [(ESelf "__clear_astral_fire"); (ECall "JobResourceSpec" []
  [("name", (EStr "Umbral Ice")); ("change", (EPos (EInt 1))); ("refreshes_duration_of_last_gained", (EBool true))])])); ((EStr "1 Umbral Ice"), (ETup
  [(ESelf "__clear_umbral_ice"); (ECall "JobResourceSpec" [] [("name", (EStr "Astral Fire")); ("change", (EPos (EInt 1)));
  ("refreshes_duration_of_last_gained", (EBool true))])])); ((EStr "2 Umbral Ice"), (ETup [(ESelf "__clear_umbral_ice"); (ECall "JobResourceSpec" []
  [("name", (EStr "Astral Fire")); ("change", (EPos (EInt 1))); ("refreshes_duration_of_last_gained", (EBool true))])])); ((EStr "3 Umbral Ice"),
  (ETup [(ESelf "__clear_umbral_ice"); (ECall "JobResourceSpec" [] [("name", (EStr "Astral Fire")); ("change", (EPos (EInt 1)));
  ("refreshes_duration_of_last_gained", (EBool true))])]))])); ("follow_up_skills", (ETup [(ESelf "__enochian_buff_follow_up")]))])].

(** simulator/game_data/class_skills/caster/blm.py lines 1302-1322: sharpcast *)
Definition blm_m38 : pmethod := mkMethod "sharpcast" []
  [SIf (EVer OGe V70) [SRet ENone] []; SAsg "name" (EStr "Sharpcast"); SRet (ECall "Skill" [] [("name", (EVar "name")); ("is_GCD", (EBool false));
  ("timing_spec", (ESelf "__blm_instant_timing_spec")); ("buff_spec", (ECall "StatusEffectSpec" [] [("add_to_skill_modifier_condition", (EBool true));
  ("num_uses", (EInt 1)); ("duration", (EBin BMul (EInt 30) (EInt 1000))); ("skill_allowlist", (ETup [(EStr "Scathe"); (EStr "Fire"); (EStr
  "Paradox"); (EStr "Thunder III"); (EStr "Thunder IV")]))]))])].

(** simulator/game_data/class_skills/caster/blm.py lines 1329-1347: manafont *)
Definition blm_m39 : pmethod := mkMethod "manafont" []
  [SAsg "name" (EStr "Manafont"); SRet (ECall "Skill" [] [("name", (EVar "name")); ("is_GCD", (EBool false)); ("timing_spec", (ESelf
  "__blm_instant_timing_spec")); ("job_resource_spec", (EIf (EVer OGe V70) (ETup [(ESelf "__clear_umbral_ice"); (ECall "JobResourceSpec" [] [("name",
  (EStr "Astral Fire")); ("change", (EPos (EInt 3))); ("refreshes_duration_of_last_gained", (EBool true))])]) (ECall "tuple" [] [])))])].

(** simulator/game_data/class_skills/caster/blm.py lines 1350-1354: umbral_soul *)
Definition blm_m40 : pmethod := mkMethod "umbral_soul" []
  [SAsg "name" (EStr "Umbral Soul"); SRet (ECall "Skill" [] [("name", (EVar "name")); ("is_GCD", (EBool false)); ("timing_spec", (ESelf
  "__blm_instant_timing_spec"))])].

(** simulator/game_data/class_skills/caster/blm.py lines 1357-1361: amplifier *)
Definition blm_m41 : pmethod := mkMethod "amplifier" []
  [SAsg "name" (EStr "Amplifier"); SRet (ECall "Skill" [] [("name", (EVar "name")); ("is_GCD", (EBool false)); ("timing_spec", (ESelf
  "__blm_instant_timing_spec"))])].

(** simulator/game_data/class_skills/caster/blm.py lines 22-43: __init__ after super().__init__ *)
Definition blm_init : list stmt :=
  [SAttr "_job_class" (EStr "BLM"); SAttr "__blm_caster_tax_ms" (EInt 100); SAttr "__base_animation_lock" (EInt 600); SAttr
  "__blm_instant_timing_spec" (ECall "TimingSpec" [] [("base_cast_time", (EInt 0)); ("animation_lock", (ESelf "__base_animation_lock"))]); SAttr
  "__af_skill_allowlist" (EData (EStr "Astral Fire") (EStr "allowlist")); SAttr "__ui_skill_allowlist" (EData (EStr "Umbral Ice") (EStr "allowlist"));
  SAttr "__clear_umbral_ice" (ECall "JobResourceSpec" [] [("name", (EStr "Umbral Ice")); ("change", (ENeg (EConst "math.inf")));
  ("refreshes_duration_of_last_gained", (EBool true))]); SAttr "__clear_astral_fire" (ECall "JobResourceSpec" [] [("name", (EStr "Astral Fire"));
  ("change", (ENeg (EConst "math.inf"))); ("refreshes_duration_of_last_gained", (EBool true))]); SAttr "__enochian_buff_follow_up" (EMeth
  "__get_enochian_buff_follow_up" [] [])].

(** simulator/game_data/class_skills/caster/blm.py lines 20-1361: class BlmSkills; the decorated methods in the order of [dir] *)
Definition blm_class : pclass := mkClass [] blm_init
  [blm_m0; blm_m1; blm_m2; blm_m3; blm_m4; blm_m5; blm_m6; blm_m7; blm_m8; blm_m9; blm_m10; blm_m11; blm_m12; blm_m13; blm_m14; blm_m15; blm_m16;
  blm_m17; blm_m18; blm_m19; blm_m20; blm_m21; blm_m22; blm_m23; blm_m24; blm_m25; blm_m26; blm_m27; blm_m28; blm_m29; blm_m30; blm_m31; blm_m32;
  blm_m33; blm_m34; blm_m35; blm_m36; blm_m37; blm_m38; blm_m39; blm_m40; blm_m41]
  ["amplifier"; "auto"; "blizzard"; "blizzard_iii"; "blizzard_iv"; "despair"; "fire"; "fire_iii"; "fire_iv"; "firestarter"; "flare"; "flare_star";
  "foul"; "freeze"; "high_blizzard_ii"; "high_fire_ii"; "high_thunder"; "high_thunder_ii"; "ley_lines"; "manafont"; "paradox"; "scathe"; "sharpcast";
  "swiftcast"; "thunder_iii"; "thunder_iv"; "thundercloud"; "transpose"; "triplecast"; "umbral_soul"; "xenoglossys"]
  ["astral_fire"; "umbral_ice"]
  blm_data.
