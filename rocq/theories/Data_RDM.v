(** * RDM: the shipped skill definitions.

    Generated by tools/gen_game_data.py from
    simulator/game_data/class_skills/caster/rdm.py and simulator/game_data/class_skills/caster/rdm_data.py. *)

From Coq Require Import ZArith List String.
From Verif Require Import Py.
Import ListNotations.
Open Scope string_scope.
Open Scope Z_scope.

(** simulator/game_data/class_skills/caster/rdm_data.py lines 8-105, in dict-literal order *)
Definition rdm_data : data_table := [
  ("Riposte", [(90, [("potency", [(V655, (EInt 130))])]); (100, [("potency", [(V70, (EInt 130))])])]);
  ("Corps-a-corps", [(90, [("potency", [(V655, (EInt 130))])]); (100, [("potency", [(V70, (EInt 130))])])]);
  ("Verthunder II", [(90, [("potency", [(V655, (EInt 140))])]); (100, [("potency", [(V70, (EInt 140))])])]);
  ("Veraero II", [(90, [("potency", [(V655, (EInt 140))])]); (100, [("potency", [(V70, (EInt 140))])])]);
  ("Verfire", [(90, [("potency", [(V655, (EInt 340))])]); (100, [("potency", [(V70, (EInt 380))])])]);
  ("Verstone", [(90, [("potency", [(V655, (EInt 340))])]); (100, [("potency", [(V70, (EInt 380))])])]);
  ("Zwerchhau", [(90, [("potency", [(V655, (EInt 150))]); ("potency_no_combo", [(V655, (EInt 100))])]); (100, [("potency", [(V70, (EInt 150))]);
  ("potency_no_combo", [(V70, (EInt 100))])])]);
  ("Displacement", [(90, [("potency", [(V655, (EInt 180))])]); (100, [("potency", [(V70, (EInt 180))])])]);
  ("Engagement", [(90, [("potency", [(V655, (EInt 180))])]); (100, [("potency", [(V70, (EInt 180))])])]);
  ("Fleche", [(90, [("potency", [(V655, (EInt 460))])]); (100, [("potency", [(V70, (EInt 480))])])]);
  ("Redoublement", [(90, [("potency", [(V655, (EInt 230))]); ("potency_no_combo", [(V655, (EInt 100))])]); (100, [("potency", [(V70, (EInt 230))]);
  ("potency_no_combo", [(V70, (EInt 100))])])]);
  ("Moulinet", [(90, [("potency", [(V655, (EInt 60))])]); (100, [("potency", [(V70, (EInt 60))])])]);
  ("Contre Sixte", [(90, [("potency", [(V655, (EInt 380))])]); (100, [("potency", [(V70, (EInt 400)); (V705, (EInt 420))])])]);
  ("Embolden", [(90, [("duration", [(V655, (ECall "int" [(EBin BMul (EFlt 399 20) (EInt 1000))] []))])]); (100, [("duration", [(V70, (ECall "int"
  [(EBin BMul (EFlt 399 20) (EInt 1000))] []))])])]);
  ("Manafication", [(90, [("duration", [(V655, (EBin BMul (EInt 15) (EInt 1000)))])]); (100, [("duration", [(V70, (EBin BMul (EInt 15) (EInt 1000)));
  (V701, (EBin BMul (EInt 30) (EInt 1000)))])])]);
  ("Jolt II", [(90, [("potency", [(V655, (EInt 320))])]); (100, [("potency", [(V70, (EInt 280))])])]);
  ("Jolt III", [(90, [("potency", [(V70, (EInt 360))])]); (100, [("potency", [(V70, (EInt 360))])])]);
  ("Impact", [(90, [("potency", [(V655, (EInt 210))]); ("potency_acceleration", [(V655, (EInt 260))])]); (100, [("potency", [(V70, (EInt 210))]);
  ("potency_acceleration", [(V70, (EInt 260))])])]);
  ("Verflare", [(90, [("potency", [(V655, (EInt 600))])]); (100, [("potency", [(V70, (EInt 620)); (V71, (EInt 650))])])]);
  ("Verholy", [(90, [("potency", [(V655, (EInt 600))])]); (100, [("potency", [(V70, (EInt 620)); (V71, (EInt 650))])])]);
  ("Reprise", [(90, [("potency", [(V655, (EInt 100))])]); (100, [("potency", [(V70, (EInt 100))])])]);
  ("Scorch", [(90, [("potency", [(V655, (EInt 680))])]); (100, [("potency", [(V70, (EInt 700)); (V71, (EInt 750))])])]);
  ("Verthunder III", [(90, [("potency", [(V655, (EInt 380))])]); (100, [("potency", [(V70, (EInt 420)); (V705, (EInt 440))])])]);
  ("Veraero III", [(90, [("potency", [(V655, (EInt 380))])]); (100, [("potency", [(V70, (EInt 420)); (V705, (EInt 440))])])]);
  ("Resolution", [(90, [("potency", [(V655, (EInt 750))])]); (100, [("potency", [(V70, (EInt 800)); (V71, (EInt 850))])])]);
  ("Vice of Thorns", [(100, [("potency", [(V70, (EInt 700))])])]);
  ("Grand Impact", [(100, [("potency", [(V70, (EInt 600))])])]);
  ("Prefulgence", [(100, [("potency", [(V70, (EInt 900))])])]);
  ("Enchanted Riposte", [(90, [("potency", [(V655, (EInt 280))])]); (100, [("potency", [(V70, (EInt 300))])])]);
  ("Enchanted Zwerchhau", [(90, [("potency", [(V655, (EInt 340))]); ("potency_no_combo", [(V655, (EInt 150))])]); (100, [("potency", [(V70, (EInt
  360))]); ("potency_no_combo", [(V70, (EInt 170))])])]);
  ("Enchanted Redoublement", [(90, [("potency", [(V655, (EInt 500))]); ("potency_no_combo", [(V655, (EInt 130))])]); (100, [("potency", [(V70, (EInt
  540))]); ("potency_no_combo", [(V70, (EInt 170))])])]);
  ("Enchanted Moulinet", [(90, [("potency", [(V655, (EInt 130))])]); (100, [("potency", [(V70, (EInt 130))])])]);
  ("Enchanted Moulinet Deux", [(90, [("potency", [(V70, (EInt 140))])]); (100, [("potency", [(V70, (EInt 140))])])]);
  ("Enchanted Moulinet Trois", [(90, [("potency", [(V70, (EInt 150))])]); (100, [("potency", [(V70, (EInt 150))])])]);
  ("Enchanted Reprise", [(90, [("potency", [(V655, (EInt 340))])]); (100, [("potency", [(V70, (EInt 380)); (V705, (EInt 420))])])])].

(** simulator/game_data/class_skills/caster/rdm.py lines 24-25: get_status_effect_priority *)
Definition rdm_m0 : pmethod := mkMethod "get_status_effect_priority" []
  [SRet (ETup [(EStr "Swiftcast"); (EStr "Acceleration"); (EStr "Dualcast")])].

(** simulator/game_data/class_skills/caster/rdm.py lines 27-30: get_combo_breakers *)
Definition rdm_m1 : pmethod := mkMethod "get_combo_breakers" []
  [SIf (EVer OGe V70) [SRet (ETup [(ETup [(EInt 1); (ETup [(EInt 0)])]); (ETup [(EInt 0); (ETup [(EInt 1)])])])] []; SRet ENone].

(** simulator/game_data/class_skills/caster/rdm.py lines 32-57: __get_dualcast_follow_up *)
Definition rdm_m2 : pmethod := mkMethod "__get_dualcast_follow_up" []
  [SAsg "dualcast_buff" (ECall "Skill" [] [("name", (EStr "Dualcast")); ("is_GCD", (EBool false)); ("buff_spec", (ECall "StatusEffectSpec" []
  [("flat_cast_time_reduction", (EConst "math.inf")); ("add_to_skill_modifier_condition", (EBool true)); ("duration", (EBin BMul (EInt 15) (EInt
  1000))); ("num_uses", (EInt 1)); ("skill_allowlist", (ETup [(EStr "Verthunder II"); (EStr "Veraero II"); (EStr "Verfire"); (EStr "Verstone"); (EStr
  "Vercure"); (EStr "Jolt II"); (EStr "Jolt III"); (EStr "Verraise"); (EStr "Impact"); (EStr "Grand Impact"); (EStr "Verthunder III"); (EStr
  "Veraero III")]))]))]); SRet (ECall "FollowUp" [] [("skill", (EVar "dualcast_buff")); ("delay_after_parent_application", (EInt 0))])].

(** simulator/game_data/class_skills/caster/rdm.py lines 60-70: auto *)
Definition rdm_m3 : pmethod := mkMethod "auto" []
  [SAsg "name" (EStr "Auto"); SRet (ECall "Skill" [] [("name", (EVar "name")); ("is_GCD", (EBool false)); ("timing_spec", (ESelf "auto_timing_spec"));
  ("damage_spec", (ECall "DamageSpec" [] [("potency", (EInt 90)); ("damage_class", (EConst "DamageClass.AUTO")); ("trait_damage_mult_override", (EInt
  1))])); ("status_effect_denylist", (ETup [(EStr "Manafication"); (EStr "Embolden")]))])].

(** simulator/game_data/class_skills/caster/rdm.py lines 73-82: riposte *)
Definition rdm_m4 : pmethod := mkMethod "riposte" []
  [SAsg "name" (EStr "Riposte"); SRet (ECall "Skill" [] [("name", (EVar "name")); ("is_GCD", (EBool true)); ("damage_spec", (ECall "DamageSpec" []
  [("potency", (EPot (EVar "name")))])); ("combo_spec", (ETup [(ECall "ComboSpec" [] [])])); ("timing_spec", (ESelf "instant_timing_spec"));
  ("status_effect_denylist", (ETup [(EStr "Manafication"); (EStr "Embolden")]))])].

(** simulator/game_data/class_skills/caster/rdm.py lines 85-95: corps_a_corps *)
Definition rdm_m5 : pmethod := mkMethod "corps_a_corps" []
  [SAsg "name" (EStr "Corps-a-corps"); SRet (ECall "Skill" [] [("name", (EVar "name")); ("is_GCD", (EBool false)); ("damage_spec", (ECall "DamageSpec"
  [] [("potency", (EPot (EVar "name")))])); ("timing_spec", (ECall "TimingSpec" [] [("base_cast_time", (EInt 0)); ("animation_lock", (EInt 650));
  ("application_delay", (EInt 630))])); ("status_effect_denylist", (ETup [(EStr "Manafication"); (EStr "Embolden")]))])].

(** simulator/game_data/class_skills/caster/rdm.py lines 98-129: verthunder_ii *)
Definition rdm_m6 : pmethod := mkMethod "verthunder_ii" []
  [SAsg "name" (EStr "Verthunder II"); SAsg "verthunder_2_damage_follow_up" (ECall "FollowUp" [] [("skill", (ECall "Skill" [] [("name", (EVar
  "name")); ("damage_spec", (ECall "DamageSpec" [] [("potency", (EPot (EVar "name")))]))])); ("delay_after_parent_application", (EInt 800));
  ("primary_target_only", (EBool false))]); SRet (ECall "Skill" [] [("name", (EVar "name")); ("is_GCD", (EBool true)); ("timing_spec", (EDict
  [((EConst "SimConsts.DEFAULT_CONDITION"), (ECall "TimingSpec" [] [("base_cast_time", (EInt 2000)); ("animation_lock", (ESelf "__rdm_caster_tax"));
  ("application_delay", (EInt 0))])); ((EStr "Dualcast"), (ECall "TimingSpec" [] [("base_cast_time", (EInt 0)); ("animation_lock", (EInt 650));
  ("application_delay", (EInt 0))]))])); ("follow_up_skills", (EDict [((EConst "SimConsts.DEFAULT_CONDITION"), (ETup [(EVar
  "verthunder_2_damage_follow_up"); (EMeth "__get_dualcast_follow_up" [] [])])); ((EStr "Dualcast"), (ETup [(EVar
  "verthunder_2_damage_follow_up")]))])); ("has_aoe", (EBool true))])].

(** simulator/game_data/class_skills/caster/rdm.py lines 132-163: veraero_ii *)
Definition rdm_m7 : pmethod := mkMethod "veraero_ii" []
  [SAsg "name" (EStr "Veraero II"); SAsg "veraero_2_damage_follow_up" (ECall "FollowUp" [] [("skill", (ECall "Skill" [] [("name", (EVar "name"));
  ("damage_spec", (ECall "DamageSpec" [] [("potency", (EPot (EVar "name")))]))])); ("delay_after_parent_application", (EInt 800));
  ("primary_target_only", (EBool false))]); SRet (ECall "Skill" [] [("name", (EVar "name")); ("is_GCD", (EBool true)); ("timing_spec", (EDict
  [((EConst "SimConsts.DEFAULT_CONDITION"), (ECall "TimingSpec" [] [("base_cast_time", (EInt 2000)); ("animation_lock", (ESelf "__rdm_caster_tax"));
  ("application_delay", (EInt 0))])); ((EStr "Dualcast"), (ECall "TimingSpec" [] [("base_cast_time", (EInt 0)); ("animation_lock", (EInt 650));
  ("application_delay", (EInt 0))]))])); ("follow_up_skills", (EDict [((EConst "SimConsts.DEFAULT_CONDITION"), (ETup [(EVar
  "veraero_2_damage_follow_up"); (EMeth "__get_dualcast_follow_up" [] [])])); ((EStr "Dualcast"), (ETup [(EVar "veraero_2_damage_follow_up")]))]));
  ("has_aoe", (EBool true))])].

(** simulator/game_data/class_skills/caster/rdm.py lines 166-195: verfire *)
Definition rdm_m8 : pmethod := mkMethod "verfire" []
  [SAsg "name" (EStr "Verfire"); SAsg "verfire_damage_follow_up" (ECall "FollowUp" [] [("skill", (ECall "Skill" [] [("name", (EVar "name"));
  ("damage_spec", (ECall "DamageSpec" [] [("potency", (EPot (EVar "name")))]))])); ("delay_after_parent_application", (EInt 800))]); SRet (ECall
  "Skill" [] [("name", (EVar "name")); ("is_GCD", (EBool true)); ("timing_spec", (EDict [((EConst "SimConsts.DEFAULT_CONDITION"), (ECall "TimingSpec"
  [] [("base_cast_time", (EInt 2000)); ("animation_lock", (ESelf "__rdm_caster_tax")); ("application_delay", (EInt 0))])); ((EStr "Dualcast"), (ECall
  "TimingSpec" [] [("base_cast_time", (EInt 0)); ("animation_lock", (EInt 650)); ("application_delay", (EInt 0))]))])); ("follow_up_skills", (EDict
  [((EConst "SimConsts.DEFAULT_CONDITION"), (ETup [(EVar "verfire_damage_follow_up"); (EMeth "__get_dualcast_follow_up" [] [])])); ((EStr "Dualcast"),
  (ETup [(EVar "verfire_damage_follow_up")]))]))])].

(** simulator/game_data/class_skills/caster/rdm.py lines 198-227: verstone *)
Definition rdm_m9 : pmethod := mkMethod "verstone" []
  [SAsg "name" (EStr "Verstone"); SAsg "verstone_damage_follow_up" (ECall "FollowUp" [] [("skill", (ECall "Skill" [] [("name", (EVar "name"));
  ("damage_spec", (ECall "DamageSpec" [] [("potency", (EPot (EVar "name")))]))])); ("delay_after_parent_application", (EInt 800))]); SRet (ECall
  "Skill" [] [("name", (EVar "name")); ("is_GCD", (EBool true)); ("timing_spec", (EDict [((EConst "SimConsts.DEFAULT_CONDITION"), (ECall "TimingSpec"
  [] [("base_cast_time", (EInt 2000)); ("animation_lock", (ESelf "__rdm_caster_tax")); ("application_delay", (EInt 0))])); ((EStr "Dualcast"), (ECall
  "TimingSpec" [] [("base_cast_time", (EInt 0)); ("animation_lock", (EInt 650)); ("application_delay", (EInt 0))]))])); ("follow_up_skills", (EDict
  [((EConst "SimConsts.DEFAULT_CONDITION"), (ETup [(EVar "verstone_damage_follow_up"); (EMeth "__get_dualcast_follow_up" [] [])])); ((EStr
  "Dualcast"), (ETup [(EVar "verstone_damage_follow_up")]))]))])].

(** simulator/game_data/class_skills/caster/rdm.py lines 230-248: zwerchhau *)
Definition rdm_m10 : pmethod := mkMethod "zwerchhau" []
  [SAsg "name" (EStr "Zwerchhau"); SRet (ECall "Skill" [] [("name", (EVar "name")); ("is_GCD", (EBool true)); ("damage_spec", (EDict [((EConst
  "SimConsts.DEFAULT_CONDITION"), (ECall "DamageSpec" [] [("potency", (EPot (EVar "name")))])); ((EStr "No Combo"), (ECall "DamageSpec" []
  [("potency", (EPotNC (EVar "name")))]))])); ("timing_spec", (ECall "TimingSpec" [] [("base_cast_time", (EInt 0)); ("animation_lock", (EInt 650));
  ("application_delay", (EInt 630))])); ("combo_spec", (ETup [(ECall "ComboSpec" [] [("combo_actions", (ETup [(EStr "Riposte"); (EStr
  "Enchanted Riposte")]))])])); ("status_effect_denylist", (ETup [(EStr "Manafication"); (EStr "Embolden")]))])].

(** simulator/game_data/class_skills/caster/rdm.py lines 251-261: displacement *)
Definition rdm_m11 : pmethod := mkMethod "displacement" []
  [SAsg "name" (EStr "Displacement"); SRet (ECall "Skill" [] [("name", (EVar "name")); ("is_GCD", (EBool false)); ("damage_spec", (ECall "DamageSpec"
  [] [("potency", (EPot (EVar "name")))])); ("timing_spec", (ECall "TimingSpec" [] [("base_cast_time", (EInt 0)); ("animation_lock", (EInt 650));
  ("application_delay", (EInt 760))])); ("status_effect_denylist", (ETup [(EStr "Manafication"); (EStr "Embolden")]))])].

(** simulator/game_data/class_skills/caster/rdm.py lines 264-274: engagement *)
Definition rdm_m12 : pmethod := mkMethod "engagement" []
  [SAsg "name" (EStr "Engagement"); SRet (ECall "Skill" [] [("name", (EVar "name")); ("is_GCD", (EBool false)); ("damage_spec", (ECall "DamageSpec" []
  [("potency", (EPot (EVar "name")))])); ("timing_spec", (ECall "TimingSpec" [] [("base_cast_time", (EInt 0)); ("animation_lock", (EInt 650));
  ("application_delay", (EInt 580))])); ("status_effect_denylist", (ETup [(EStr "Manafication"); (EStr "Embolden")]))])].

(** simulator/game_data/class_skills/caster/rdm.py lines 277-287: fleche *)
Definition rdm_m13 : pmethod := mkMethod "fleche" []
  [SAsg "name" (EStr "Fleche"); SRet (ECall "Skill" [] [("name", (EVar "name")); ("is_GCD", (EBool false)); ("damage_spec", (ECall "DamageSpec" []
  [("potency", (EPot (EVar "name")))])); ("timing_spec", (ECall "TimingSpec" [] [("base_cast_time", (EInt 0)); ("animation_lock", (EInt 650));
  ("application_delay", (EInt 1160))])); ("status_effect_denylist", (ETup [(EStr "Manafication"); (EStr "Embolden")]))])].

(** simulator/game_data/class_skills/caster/rdm.py lines 290-308: redoublement *)
Definition rdm_m14 : pmethod := mkMethod "redoublement" []
  [SAsg "name" (EStr "Redoublement"); SRet (ECall "Skill" [] [("name", (EVar "name")); ("is_GCD", (EBool true)); ("combo_spec", (ETup [(ECall
  "ComboSpec" [] [("combo_actions", (ETup [(EStr "Zwerchhau"); (EStr "Enchanted Zwerchhau")]))])])); ("damage_spec", (EDict [((EConst
  "SimConsts.DEFAULT_CONDITION"), (ECall "DamageSpec" [] [("potency", (EPot (EVar "name")))])); ((EStr "No Combo"), (ECall "DamageSpec" []
  [("potency", (EPotNC (EVar "name")))]))])); ("timing_spec", (ECall "TimingSpec" [] [("base_cast_time", (EInt 0)); ("animation_lock", (EInt 650));
  ("application_delay", (EInt 630))])); ("status_effect_denylist", (ETup [(EStr "Manafication"); (EStr "Embolden")]))])].

(** simulator/game_data/class_skills/caster/rdm.py lines 311-322: moulinet *)
Definition rdm_m15 : pmethod := mkMethod "moulinet" []
  [SAsg "name" (EStr "Moulinet"); SRet (ECall "Skill" [] [("name", (EVar "name")); ("is_GCD", (EBool true)); ("damage_spec", (ECall "DamageSpec" []
  [("potency", (EPot (EVar "name")))])); ("timing_spec", (ECall "TimingSpec" [] [("base_cast_time", (EInt 0)); ("animation_lock", (EInt 650));
  ("application_delay", (EInt 800))])); ("status_effect_denylist", (ETup [(EStr "Manafication"); (EStr "Embolden")])); ("has_aoe", (EBool true))])].

(** simulator/game_data/class_skills/caster/rdm.py lines 325-336: contre_sixte *)
Definition rdm_m16 : pmethod := mkMethod "contre_sixte" []
  [SAsg "name" (EStr "Contre Sixte"); SRet (ECall "Skill" [] [("name", (EVar "name")); ("is_GCD", (EBool false)); ("damage_spec", (ECall "DamageSpec"
  [] [("potency", (EPot (EVar "name")))])); ("timing_spec", (ECall "TimingSpec" [] [("base_cast_time", (EInt 0)); ("animation_lock", (EInt 650));
  ("application_delay", (EInt 1160))])); ("status_effect_denylist", (ETup [(EStr "Manafication"); (EStr "Embolden")])); ("has_aoe", (EBool true))])].

(** simulator/game_data/class_skills/caster/rdm.py lines 339-352: embolden *)
Definition rdm_m17 : pmethod := mkMethod "embolden" []
  [SAsg "name" (EStr "Embolden"); SRet (ECall "Skill" [] [("name", (EVar "name")); ("is_GCD", (EBool false)); ("buff_spec", (ECall "StatusEffectSpec"
  [] [("damage_mult", (EFlt 21 20)); ("duration", (EData (EVar "name") (EStr "duration"))); ("is_party_effect", (EBool true))])); ("timing_spec",
  (ECall "TimingSpec" [] [("base_cast_time", (EInt 0)); ("animation_lock", (EInt 650)); ("application_delay", (EInt 660))]))])].

(** simulator/game_data/class_skills/caster/rdm.py lines 355-394: manafication *)
Definition rdm_m18 : pmethod := mkMethod "manafication" []
  [SAsg "name" (EStr "Manafication"); SAsg "manafication_allowlist" (ETup [(EStr "Verthunder II"); (EStr "Veraero II"); (EStr "Verfire"); (EStr
  "Verstone"); (EStr "Jolt II"); (EStr "Jolt III"); (EStr "Impact"); (EStr "Grand Impact"); (EStr "Verflare"); (EStr "Verholy"); (EStr "Reprise");
  (EStr "Scorch"); (EStr "Verthunder III"); (EStr "Veraero III"); (EStr "Resolution"); (EStr "Enchanted Riposte"); (EStr "Enchanted Zwerchhau"); (EStr
  "Enchanted Redoublement"); (EStr "Enchanted Moulinet"); (EStr "Enchanted Moulinet Deux"); (EStr "Enchanted Moulinet Trois"); (EStr
  "Enchanted Reprise")]); SRet (ECall "Skill" [] [("name", (EVar "name")); ("is_GCD", (EBool false)); ("combo_spec", (ETup [(ECall "ComboSpec" []
  [])])); ("buff_spec", (ECall "StatusEffectSpec" [] [("damage_mult", (EFlt 21 20)); ("duration", (EData (EVar "name") (EStr "duration")));
  ("num_uses", (EInt 6)); ("skill_allowlist", (EVar "manafication_allowlist"))])); ("timing_spec", (ESelf "instant_timing_spec"))])].

(** simulator/game_data/class_skills/caster/rdm.py lines 397-427: jolt_ii *)
Definition rdm_m19 : pmethod := mkMethod "jolt_ii" []
  [SAsg "name" (EStr "Jolt II"); SAsg "jolt_2_damage_follow_up" (ECall "FollowUp" [] [("skill", (ECall "Skill" [] [("name", (EVar "name"));
  ("damage_spec", (ECall "DamageSpec" [] [("potency", (EPot (EVar "name")))]))])); ("delay_after_parent_application", (EInt 760))]); SAsg "name" (EStr
  "Jolt II"); SRet (ECall "Skill" [] [("name", (EVar "name")); ("is_GCD", (EBool true)); ("timing_spec", (EDict [((EConst
  "SimConsts.DEFAULT_CONDITION"), (ECall "TimingSpec" [] [("base_cast_time", (EInt 2000)); ("animation_lock", (ESelf "__rdm_caster_tax"));
  ("application_delay", (EInt 0))])); ((EStr "Dualcast"), (ECall "TimingSpec" [] [("base_cast_time", (EInt 0)); ("animation_lock", (EInt 650));
  ("application_delay", (EInt 0))]))])); ("follow_up_skills", (EDict [((EConst "SimConsts.DEFAULT_CONDITION"), (ETup [(EVar
  "jolt_2_damage_follow_up"); (EMeth "__get_dualcast_follow_up" [] [])])); ((EStr "Dualcast"), (ETup [(EVar "jolt_2_damage_follow_up")]))]))])].

(** simulator/game_data/class_skills/caster/rdm.py lines 430-462: jolt_iii *)
Definition rdm_m20 : pmethod := mkMethod "jolt_iii" []
  [SIf (EVer OLt V70) [SRet ENone] []; SAsg "name" (EStr "Jolt III"); SAsg "jolt_3_damage_follow_up" (ECall "FollowUp" [] [("skill", (ECall "Skill" []
  [("name", (EVar "name")); ("damage_spec", (ECall "DamageSpec" [] [("potency", (EPot (EVar "name")))]))])); ("delay_after_parent_application", (EInt
  800))]); SRet (ECall "Skill" [] [("name", (EVar "name")); ("is_GCD", (EBool true)); ("timing_spec", (EDict [((EConst "SimConsts.DEFAULT_CONDITION"),
  (ECall "TimingSpec" [] [("base_cast_time", (EInt 2000)); ("animation_lock", (ESelf "__rdm_caster_tax")); ("application_delay", (EInt 0))])); ((EStr
  "Dualcast"), (ECall "TimingSpec" [] [("base_cast_time", (EInt 0)); ("animation_lock", (EInt 650)); ("application_delay", (EInt 0))]))]));
  ("follow_up_skills", (EDict [((EConst "SimConsts.DEFAULT_CONDITION"), (ETup [(EVar "jolt_3_damage_follow_up"); (EMeth "__get_dualcast_follow_up" []
  [])])); ((EStr "Dualcast"), (ETup [(EVar "jolt_3_damage_follow_up")]))]))])].

(** simulator/game_data/class_skills/caster/rdm.py lines 465-516: impact *)
Definition rdm_m21 : pmethod := mkMethod "impact" []
  [SAsg "name" (EStr "Impact"); SAsg "impact_damage_follow_up" (ECall "FollowUp" [] [("skill", (ECall "Skill" [] [("name", (EVar "name"));
  ("damage_spec", (ECall "DamageSpec" [] [("potency", (EPot (EVar "name")))]))])); ("delay_after_parent_application", (EInt 760));
  ("primary_target_only", (EBool false))]); SAsg "impact_acceleration_damage_follow_up" (ECall "FollowUp" [] [("skill", (ECall "Skill" [] [("name",
  (EVar "name")); ("damage_spec", (ECall "DamageSpec" [] [("potency", (EData (EVar "name") (EStr "potency_acceleration")))]))]));
  ("delay_after_parent_application", (EInt 760)); ("primary_target_only", (EBool false))]); SRet (ECall "Skill" [] [("name", (EVar "name"));
  ("is_GCD", (EBool true)); ("timing_spec", (EDict [((EConst "SimConsts.DEFAULT_CONDITION"), (ECall "TimingSpec" [] [("base_cast_time", (EInt 5000));
  ("animation_lock", (ESelf "__rdm_caster_tax")); ("application_delay", (EInt 0))])); ((EStr "Dualcast"), (ECall "TimingSpec" [] [("base_cast_time",
  (EInt 0)); ("animation_lock", (EInt 650)); ("application_delay", (EInt 0))])); ((EStr "Acceleration"), (ECall "TimingSpec" [] [("base_cast_time",
  (EInt 0)); ("animation_lock", (EInt 650)); ("application_delay", (EInt 0))])); ((EStr "Acceleration, Dualcast"), (ECall "TimingSpec" []
  [("base_cast_time", (EInt 0)); ("animation_lock", (EInt 650)); ("application_delay", (EInt 0))]))])); ("follow_up_skills", (EDict [((EConst
  "SimConsts.DEFAULT_CONDITION"), (ETup [(EVar "impact_damage_follow_up"); (EMeth "__get_dualcast_follow_up" [] [])])); ((EStr "Dualcast"), (ETup
  [(EVar "impact_damage_follow_up")])); ((EStr "Acceleration"), (ETup [(EVar "impact_acceleration_damage_follow_up")])); ((EStr
  "Acceleration, Dualcast"), (ETup [(EVar "impact_acceleration_damage_follow_up")]))])); ("has_aoe", (EBool true))])].

(** simulator/game_data/class_skills/caster/rdm.py lines 519-531: verflare *)
Definition rdm_m22 : pmethod := mkMethod "verflare" []
  [SAsg "name" (EStr "Verflare"); SRet (ECall "Skill" [] [("name", (EVar "name")); ("is_GCD", (EBool true)); ("combo_spec", (ETup [(ECall "ComboSpec"
  [] [])])); ("damage_spec", (ECall "DamageSpec" [] [("potency", (EPot (EVar "name")))])); ("timing_spec", (ECall "TimingSpec" [] [("base_cast_time",
  (EInt 0)); ("animation_lock", (EInt 650)); ("application_delay", (EInt 1430))])); ("has_aoe", (EBool true)); ("aoe_dropoff", (EFlt 3 5))])].

(** simulator/game_data/class_skills/caster/rdm.py lines 534-546: verholy *)
Definition rdm_m23 : pmethod := mkMethod "verholy" []
  [SAsg "name" (EStr "Verholy"); SRet (ECall "Skill" [] [("name", (EVar "name")); ("is_GCD", (EBool true)); ("combo_spec", (ETup [(ECall "ComboSpec"
  [] [])])); ("damage_spec", (ECall "DamageSpec" [] [("potency", (EPot (EVar "name")))])); ("timing_spec", (ECall "TimingSpec" [] [("base_cast_time",
  (EInt 0)); ("animation_lock", (EInt 650)); ("application_delay", (EInt 1430))])); ("has_aoe", (EBool true)); ("aoe_dropoff", (EFlt 3 5))])].

(** simulator/game_data/class_skills/caster/rdm.py lines 549-556: reprise *)
Definition rdm_m24 : pmethod := mkMethod "reprise" []
  [SAsg "name" (EStr "Reprise"); SRet (ECall "Skill" [] [("name", (EVar "name")); ("is_GCD", (EBool true)); ("damage_spec", (ECall "DamageSpec" []
  [("potency", (EPot (EVar "name")))])); ("timing_spec", (ESelf "instant_timing_spec"))])].

(** simulator/game_data/class_skills/caster/rdm.py lines 559-571: scorch *)
Definition rdm_m25 : pmethod := mkMethod "scorch" []
  [SAsg "name" (EStr "Scorch"); SRet (ECall "Skill" [] [("name", (EVar "name")); ("is_GCD", (EBool true)); ("combo_spec", (ETup [(ECall "ComboSpec" []
  [("combo_actions", (ETup [(EStr "Verflare"); (EStr "Verholy")]))])])); ("damage_spec", (ECall "DamageSpec" [] [("potency", (EPot (EVar "name")))]));
  ("timing_spec", (ECall "TimingSpec" [] [("base_cast_time", (EInt 0)); ("animation_lock", (EInt 650)); ("application_delay", (EInt 1830))]));
  ("has_aoe", (EBool true)); ("aoe_dropoff", (EFlt 3 5))])].

(** simulator/game_data/class_skills/caster/rdm.py lines 574-611: verthunder_iii *)
Definition rdm_m26 : pmethod := mkMethod "verthunder_iii" []
  [SAsg "name" (EStr "Verthunder III"); SAsg "verthunder_3_damage_follow_up" (ECall "FollowUp" [] [("skill", (ECall "Skill" [] [("name", (EVar
  "name")); ("damage_spec", (ECall "DamageSpec" [] [("potency", (EPot (EVar "name")))]))])); ("delay_after_parent_application", (EInt 760))]); SRet
  (ECall "Skill" [] [("name", (EVar "name")); ("is_GCD", (EBool true)); ("timing_spec", (EDict [((EConst "SimConsts.DEFAULT_CONDITION"), (ECall
  "TimingSpec" [] [("base_cast_time", (EInt 5000)); ("animation_lock", (ESelf "__rdm_caster_tax")); ("application_delay", (EInt 0))])); ((EStr
  "Dualcast"), (ECall "TimingSpec" [] [("base_cast_time", (EInt 0)); ("animation_lock", (EInt 650)); ("application_delay", (EInt 0))])); ((EStr
  "Acceleration"), (ECall "TimingSpec" [] [("base_cast_time", (EInt 0)); ("animation_lock", (EInt 650)); ("application_delay", (EInt 0))])); ((EStr
  "Acceleration, Dualcast"), (ECall "TimingSpec" [] [("base_cast_time", (EInt 0)); ("animation_lock", (EInt 650)); ("application_delay", (EInt
  0))]))])); ("follow_up_skills", (EDict [((EConst "SimConsts.DEFAULT_CONDITION"), (ETup [(EVar "verthunder_3_damage_follow_up"); (EMeth
  "__get_dualcast_follow_up" [] [])])); ((EStr "Dualcast"), (ETup [(EVar "verthunder_3_damage_follow_up")])); ((EStr "Acceleration"), (ETup [(EVar
  "verthunder_3_damage_follow_up")])); ((EStr "Acceleration, Dualcast"), (ETup [(EVar "verthunder_3_damage_follow_up")]))]))])].

(** simulator/game_data/class_skills/caster/rdm.py lines 614-651: veraero_iii *)
Definition rdm_m27 : pmethod := mkMethod "veraero_iii" []
  [SAsg "name" (EStr "Veraero III"); SAsg "veraero_3_damage_follow_up" (ECall "FollowUp" [] [("skill", (ECall "Skill" [] [("name", (EVar "name"));
  ("damage_spec", (ECall "DamageSpec" [] [("potency", (EPot (EVar "name")))]))])); ("delay_after_parent_application", (EInt 760))]); SRet (ECall
  "Skill" [] [("name", (EVar "name")); ("is_GCD", (EBool true)); ("timing_spec", (EDict [((EConst "SimConsts.DEFAULT_CONDITION"), (ECall "TimingSpec"
  [] [("base_cast_time", (EInt 5000)); ("animation_lock", (ESelf "__rdm_caster_tax")); ("application_delay", (EInt 0))])); ((EStr "Dualcast"), (ECall
  "TimingSpec" [] [("base_cast_time", (EInt 0)); ("animation_lock", (EInt 650)); ("application_delay", (EInt 0))])); ((EStr "Acceleration"), (ECall
  "TimingSpec" [] [("base_cast_time", (EInt 0)); ("animation_lock", (EInt 650)); ("application_delay", (EInt 0))])); ((EStr "Acceleration, Dualcast"),
  (ECall "TimingSpec" [] [("base_cast_time", (EInt 0)); ("animation_lock", (EInt 650)); ("application_delay", (EInt 0))]))])); ("follow_up_skills",
  (EDict [((EConst "SimConsts.DEFAULT_CONDITION"), (ETup [(EVar "veraero_3_damage_follow_up"); (EMeth "__get_dualcast_follow_up" [] [])])); ((EStr
  "Dualcast"), (ETup [(EVar "veraero_3_damage_follow_up")])); ((EStr "Acceleration"), (ETup [(EVar "veraero_3_damage_follow_up")])); ((EStr
  "Acceleration, Dualcast"), (ETup [(EVar "veraero_3_damage_follow_up")]))]))])].

(** simulator/game_data/class_skills/caster/rdm.py lines 654-666: resolution *)
Definition rdm_m28 : pmethod := mkMethod "resolution" []
  [SAsg "name" (EStr "Resolution"); SRet (ECall "Skill" [] [("name", (EVar "name")); ("is_GCD", (EBool true)); ("combo_spec", (ETup [(ECall
  "ComboSpec" [] [("combo_actions", (ETup [(EStr "Scorch")]))])])); ("damage_spec", (ECall "DamageSpec" [] [("potency", (EPot (EVar "name")))]));
  ("timing_spec", (ECall "TimingSpec" [] [("base_cast_time", (EInt 0)); ("animation_lock", (EInt 650)); ("application_delay", (EInt 1560))]));
  ("has_aoe", (EBool true)); ("aoe_dropoff", (EFlt 3 5))])].

(** simulator/game_data/class_skills/caster/rdm.py lines 669-683: vice_of_thorns *)
Definition rdm_m29 : pmethod := mkMethod "vice_of_thorns" []
  [SIf (EOr (EVer OLt V70) (ELev OLt K92)) [SRet ENone] []; SAsg "name" (EStr "Vice of Thorns"); SRet (ECall "Skill" [] [("name", (EVar "name"));
  ("is_GCD", (EBool false)); ("damage_spec", (ECall "DamageSpec" [] [("potency", (EPot (EVar "name")))])); ("timing_spec", (ECall "TimingSpec" []
  [("base_cast_time", (EInt 0)); ("animation_lock", (EInt 650)); ("application_delay", (EInt 800))])); ("status_effect_denylist", (ETup [(EStr
  "Manafication"); (EStr "Embolden")])); ("has_aoe", (EBool true)); ("aoe_dropoff", (EFlt 3 5))])].

(** simulator/game_data/class_skills/caster/rdm.py lines 686-714: grand_impact *)
Definition rdm_m30 : pmethod := mkMethod "grand_impact" []
  [SIf (EOr (EVer OLt V70) (ELev OLt K96)) [SRet ENone] []; SAsg "name" (EStr "Grand Impact"); SRet (ECall "Skill" [] [("name", (EVar "name"));
  ("is_GCD", (EBool true)); ("damage_spec", (EDict [((EConst "SimConsts.DEFAULT_CONDITION"), (ECall "DamageSpec" [] [("potency", (EPot (EVar
  "name")))]))])); ("timing_spec", (EDict [((EConst "SimConsts.DEFAULT_CONDITION"), (ECall "TimingSpec" [] [("base_cast_time", (EInt 5000));
  ("animation_lock", (ESelf "__rdm_caster_tax")); ("application_delay", (EInt 1559))])); ((EStr "Dualcast"), (ECall "TimingSpec" []
  [("base_cast_time", (EInt 0)); ("animation_lock", (EInt 650)); ("application_delay", (EInt 1550))]))])); ("follow_up_skills", (EDict [((EConst
  "SimConsts.DEFAULT_CONDITION"), (ETup [(EMeth "__get_dualcast_follow_up" [] [])])); ((EStr "Dualcast"), (ECall "tuple" [] []))])); ("has_aoe",
  (EBool true)); ("aoe_dropoff", (EFlt 3 5))])].

(** simulator/game_data/class_skills/caster/rdm.py lines 717-731: prerefulgence *)
Definition rdm_m31 : pmethod := mkMethod "prerefulgence" []
  [SIf (EOr (EVer OLt V70) (ELev OLt K100)) [SRet ENone] []; SAsg "name" (EStr "Prefulgence"); SRet (ECall "Skill" [] [("name", (EVar "name"));
  ("is_GCD", (EBool false)); ("damage_spec", (ECall "DamageSpec" [] [("potency", (EPot (EVar "name")))])); ("timing_spec", (ECall "TimingSpec" []
  [("base_cast_time", (EInt 0)); ("animation_lock", (EInt 650)); ("application_delay", (EInt 1420))])); ("status_effect_denylist", (ETup [(EStr
  "Manafication")])); ("has_aoe", (EBool true)); ("aoe_dropoff", (EFlt 3 5))])].

(** simulator/game_data/class_skills/caster/rdm.py lines 734-747: enchanted_riposte *)
Definition rdm_m32 : pmethod := mkMethod "enchanted_riposte" []
  [SAsg "name" (EStr "Enchanted Riposte"); SRet (ECall "Skill" [] [("name", (EVar "name")); ("is_GCD", (EBool true)); ("damage_spec", (ECall
  "DamageSpec" [] [("potency", (EPot (EVar "name")))])); ("combo_spec", (ETup [(ECall "ComboSpec" [] [])])); ("timing_spec", (ECall "TimingSpec" []
  [("base_cast_time", (EInt 0)); ("gcd_base_recast_time", (EInt 1500)); ("animation_lock", (EInt 650)); ("application_delay", (EInt 630))]))])].

(** simulator/game_data/class_skills/caster/rdm.py lines 750-770: enchanted_zwerchhau *)
Definition rdm_m33 : pmethod := mkMethod "enchanted_zwerchhau" []
  [SAsg "name" (EStr "Enchanted Zwerchhau"); SRet (ECall "Skill" [] [("name", (EVar "name")); ("is_GCD", (EBool true)); ("combo_spec", (ETup [(ECall
  "ComboSpec" [] [("combo_actions", (ETup [(EStr "Riposte"); (EStr "Enchanted Riposte")]))])])); ("damage_spec", (EDict [((EConst
  "SimConsts.DEFAULT_CONDITION"), (ECall "DamageSpec" [] [("potency", (EPot (EVar "name")))])); ((EStr "No Combo"), (ECall "DamageSpec" []
  [("potency", (EPotNC (EVar "name")))]))])); ("timing_spec", (ECall "TimingSpec" [] [("base_cast_time", (EInt 0)); ("gcd_base_recast_time", (EInt
  1500)); ("animation_lock", (EInt 650)); ("application_delay", (EInt 630))]))])].

(** simulator/game_data/class_skills/caster/rdm.py lines 773-793: enchanted_redoublement *)
Definition rdm_m34 : pmethod := mkMethod "enchanted_redoublement" []
  [SAsg "name" (EStr "Enchanted Redoublement"); SRet (ECall "Skill" [] [("name", (EVar "name")); ("is_GCD", (EBool true)); ("combo_spec", (ETup
  [(ECall "ComboSpec" [] [("combo_actions", (ETup [(EStr "Enchanted Zwerchhau")]))])])); ("damage_spec", (EDict [((EConst
  "SimConsts.DEFAULT_CONDITION"), (ECall "DamageSpec" [] [("potency", (EPot (EVar "name")))])); ((EStr "No Combo"), (ECall "DamageSpec" []
  [("potency", (EPotNC (EVar "name")))]))])); ("timing_spec", (ECall "TimingSpec" [] [("base_cast_time", (EInt 0)); ("gcd_base_recast_time", (EInt
  2200)); ("animation_lock", (EInt 650)); ("application_delay", (EInt 630))]))])].

(** simulator/game_data/class_skills/caster/rdm.py lines 796-812: enchanted_moulinet *)
Definition rdm_m35 : pmethod := mkMethod "enchanted_moulinet" []
  [SAsg "name" (EStr "Enchanted Moulinet"); SRet (ECall "Skill" [] [("name", (EVar "name")); ("combo_spec", (EIf (EVer OGe V70) (ETup [(ECall
  "ComboSpec" [] [("combo_group", (EInt 1))])]) (ECall "tuple" [] []))); ("is_GCD", (EBool true)); ("damage_spec", (ECall "DamageSpec" [] [("potency",
  (EPot (EVar "name")))])); ("timing_spec", (ECall "TimingSpec" [] [("base_cast_time", (EInt 0)); ("gcd_base_recast_time", (EInt 1500));
  ("animation_lock", (EInt 650)); ("application_delay", (EInt 800))])); ("has_aoe", (EBool true))])].

(** simulator/game_data/class_skills/caster/rdm.py lines 815-833: enchanted_moulinet_deux *)
Definition rdm_m36 : pmethod := mkMethod "enchanted_moulinet_deux" []
  [SIf (EVer OLt V70) [SRet ENone] []; SAsg "name" (EStr "Enchanted Moulinet Deux"); SRet (ECall "Skill" [] [("name", (EVar "name")); ("is_GCD",
  (EBool true)); ("combo_spec", (ETup [(ECall "ComboSpec" [] [("combo_group", (EInt 1)); ("combo_actions", (ETup [(EStr "Enchanted Moulinet")]))])]));
  ("damage_spec", (ECall "DamageSpec" [] [("potency", (EPot (EVar "name")))])); ("timing_spec", (ECall "TimingSpec" [] [("base_cast_time", (EInt 0));
  ("gcd_base_recast_time", (EInt 1500)); ("animation_lock", (EInt 650)); ("application_delay", (EInt 800))])); ("has_aoe", (EBool true))])].

(** simulator/game_data/class_skills/caster/rdm.py lines 836-852: enchanted_moulinet_trois *)
Definition rdm_m37 : pmethod := mkMethod "enchanted_moulinet_trois" []
  [SIf (EVer OLt V70) [SRet ENone] []; SAsg "name" (EStr "Enchanted Moulinet Trois"); SRet (ECall "Skill" [] [("name", (EVar "name")); ("is_GCD",
  (EBool true)); ("combo_spec", (ETup [(ECall "ComboSpec" [] [("combo_group", (EInt 1)); ("combo_actions", (ETup [(EStr "Enchanted Deux")]))])]));
  ("damage_spec", (ECall "DamageSpec" [] [("potency", (EPot (EVar "name")))])); ("timing_spec", (ECall "TimingSpec" [] [("base_cast_time", (EInt 0));
  ("gcd_base_recast_time", (EInt 1500)); ("animation_lock", (EInt 650)); ("application_delay", (EInt 800))])); ("has_aoe", (EBool true))])].

(** simulator/game_data/class_skills/caster/rdm.py lines 855-864: enchanted_reprise *)
Definition rdm_m38 : pmethod := mkMethod "enchanted_reprise" []
  [SAsg "name" (EStr "Enchanted Reprise"); SRet (ECall "Skill" [] [("name", (EVar "name")); ("is_GCD", (EBool true)); ("damage_spec", (ECall
  "DamageSpec" [] [("potency", (EPot (EVar "name")))])); ("timing_spec", (ECall "TimingSpec" [] [("base_cast_time", (EInt 0)); ("animation_lock",
  (EInt 650)); ("application_delay", (EInt 650))]))])].

(** simulator/game_data/class_skills/caster/rdm.py lines 871-895: swiftcast *)
Definition rdm_m39 : pmethod := mkMethod "swiftcast" []
  [SAsg "name" (EStr "Swiftcast"); SRet (ECall "Skill" [] [("name", (EVar "name")); ("is_GCD", (EBool false)); ("timing_spec", (ESelf
  "instant_timing_spec")); ("buff_spec", (ECall "StatusEffectSpec" [] [("flat_cast_time_reduction", (EConst "math.inf")); ("duration", (EBin BMul
  (EInt 10) (EInt 1000))); ("num_uses", (EInt 1)); ("skill_allowlist", (ETup [(EStr "Verthunder II"); (EStr "Veraero II"); (EStr "Verfire"); (EStr
  "Verstone"); (EStr "Vercure"); (EStr "Jolt II"); (EStr "Jolt III"); (EStr "Verraise"); (EStr "Impact"); (EStr "Verthunder III"); (EStr
  "Veraero III")]))]))])].

(** simulator/game_data/class_skills/caster/rdm.py lines 898-910: acceleration *)
Definition rdm_m40 : pmethod := mkMethod "acceleration" []
  [SAsg "name" (EStr "Acceleration"); SRet (ECall "Skill" [] [("name", (EVar "name")); ("is_GCD", (EBool false)); ("timing_spec", (ESelf
  "instant_timing_spec")); ("buff_spec", (ECall "StatusEffectSpec" [] [("add_to_skill_modifier_condition", (EBool true)); ("duration", (EBin BMul
  (EInt 20) (EInt 1000))); ("num_uses", (EInt 1)); ("skill_allowlist", (ETup [(EStr "Impact"); (EStr "Verthunder III"); (EStr "Veraero III")]))]))])].

(** simulator/game_data/class_skills/caster/rdm.py lines 913-923: verraise *)
Definition rdm_m41 : pmethod := mkMethod "verraise" []
  [SAsg "name" (EStr "Verraise"); SRet (ECall "Skill" [] [("name", (EVar "name")); ("is_GCD", (EBool true)); ("timing_spec", (ECall "TimingSpec" []
  [("base_cast_time", (EBin BMul (EInt 10) (EInt 1000))); ("gcd_base_recast_time", (EInt 2500)); ("animation_lock", (ESelf "__rdm_caster_tax"))]))])].

(** simulator/game_data/class_skills/caster/rdm.py lines 926-936: vercure *)
Definition rdm_m42 : pmethod := mkMethod "vercure" []
  [SAsg "name" (EStr "Vercure"); SRet (ECall "Skill" [] [("name", (EVar "name")); ("is_GCD", (EBool true)); ("timing_spec", (ECall "TimingSpec" []
  [("base_cast_time", (EInt 2000)); ("gcd_base_recast_time", (EInt 2500)); ("animation_lock", (ESelf "__rdm_caster_tax"))]))])].

(** simulator/game_data/class_skills/caster/rdm.py lines 19-22: __init__ after super().__init__ *)
Definition rdm_init : list stmt :=
  [SAttr "_job_class" (EStr "RDM"); SAttr "__rdm_caster_tax" (EInt 100)].

(** simulator/game_data/class_skills/caster/rdm.py lines 18-936: class RdmSkills; the decorated methods in the order of [dir] *)
Definition rdm_class : pclass := mkClass [] rdm_init
  [rdm_m0; rdm_m1; rdm_m2; rdm_m3; rdm_m4; rdm_m5; rdm_m6; rdm_m7; rdm_m8; rdm_m9; rdm_m10; rdm_m11; rdm_m12; rdm_m13; rdm_m14; rdm_m15; rdm_m16;
  rdm_m17; rdm_m18; rdm_m19; rdm_m20; rdm_m21; rdm_m22; rdm_m23; rdm_m24; rdm_m25; rdm_m26; rdm_m27; rdm_m28; rdm_m29; rdm_m30; rdm_m31; rdm_m32;
  rdm_m33; rdm_m34; rdm_m35; rdm_m36; rdm_m37; rdm_m38; rdm_m39; rdm_m40; rdm_m41; rdm_m42]
  ["acceleration"; "auto"; "contre_sixte"; "corps_a_corps"; "displacement"; "embolden"; "enchanted_moulinet"; "enchanted_moulinet_deux";
  "enchanted_moulinet_trois"; "enchanted_redoublement"; "enchanted_reprise"; "enchanted_riposte"; "enchanted_zwerchhau"; "engagement"; "fleche";
  "grand_impact"; "impact"; "jolt_ii"; "jolt_iii"; "manafication"; "moulinet"; "prerefulgence"; "redoublement"; "reprise"; "resolution"; "riposte";
  "scorch"; "swiftcast"; "veraero_ii"; "veraero_iii"; "vercure"; "verfire"; "verflare"; "verholy"; "verraise"; "verstone"; "verthunder_ii";
  "verthunder_iii"; "vice_of_thorns"; "zwerchhau"]
  []
  rdm_data.
