(** * AST: the shipped skill definitions.

    Generated by tools/gen_game_data.py from
    simulator/game_data/class_skills/healer/ast.py and simulator/game_data/class_skills/healer/ast_data.py. *)

From Coq Require Import ZArith List String.
From Verif Require Import Py.
Import ListNotations.
Open Scope string_scope.
Open Scope Z_scope.

(** simulator/game_data/class_skills/healer/ast_data.py lines 8-30, in dict-literal order *)
Definition ast_data : data_table := [
  ("Divination", [(90, [("duration", [(V655, (EBin BMul (EInt 15) (EInt 1000))); (V70, (EBin BMul (EInt 20) (EInt 1000)))])]); (100, [("duration",
  [(V70, (EBin BMul (EInt 20) (EInt 1000)))])])]);
  ("Fall Malefic", [(90, [("potency", [(V655, (EInt 250))])]); (100, [("potency", [(V70, (EInt 270))])])]);
  ("Combust III (dot)", [(90, [("potency", [(V655, (EInt 55)); (V70, (EInt 65))])]); (100, [("potency", [(V70, (EInt 70))])])]);
  ("Gravity II", [(90, [("potency", [(V655, (EInt 130))])]); (100, [("potency", [(V70, (EInt 130))])])]);
  ("Macrocosmos", [(90, [("potency", [(V655, (EInt 250))])]); (100, [("potency", [(V70, (EInt 250)); (V701, (EInt 270))])])]);
  ("Lord of Crowns", [(90, [("potency", [(V655, (EInt 250)); (V70, (EInt 400))])]); (100, [("potency", [(V70, (EInt 400))])])]);
  ("Stellar Explosion (pet)", [(90, [("Earthly Dominance", [(V655, (EInt 205))]); ("Giant Dominance", [(V655, (EInt 310))])]); (100,
  [("Earthly Dominance", [(V70, (EInt 205))]); ("Giant Dominance", [(V70, (EInt 310))])])]);
  ("Oracle", [(100, [("potency", [(V70, (EInt 860))])])])].

(** simulator/game_data/class_skills/healer/ast.py lines 26-35: auto *)
Definition ast_m0 : pmethod := mkMethod "auto" []
  [SAsg "name" (EStr "Auto"); SRet (ECall "Skill" [] [("name", (EVar "name")); ("is_GCD", (EBool false)); ("timing_spec", (ESelf "auto_timing_spec"));
  ("damage_spec", (ECall "DamageSpec" [] [("potency", (EInt 90)); ("damage_class", (EConst "DamageClass.AUTO")); ("trait_damage_mult_override", (EInt
  1))]))])].

(** simulator/game_data/class_skills/healer/ast.py lines 38-51: divination *)
Definition ast_m1 : pmethod := mkMethod "divination" []
  [SAsg "name" (EStr "Divination"); SRet (ECall "Skill" [] [("name", (EVar "name")); ("is_GCD", (EBool false)); ("timing_spec", (ECall "TimingSpec" []
  [("base_cast_time", (EInt 0)); ("animation_lock", (EInt 650)); ("application_delay", (EInt 600))])); ("buff_spec", (ECall "StatusEffectSpec" []
  [("duration", (EData (EVar "name") (EStr "duration"))); ("damage_mult", (EFlt 53 50)); ("is_party_effect", (EBool true))]))])].

(** simulator/game_data/class_skills/healer/ast.py lines 54-63: fall_malefic *)
Definition ast_m2 : pmethod := mkMethod "fall_malefic" []
  [SAsg "name" (EStr "Fall Malefic"); SRet (ECall "Skill" [] [("name", (EVar "name")); ("is_GCD", (EBool true)); ("timing_spec", (ECall "TimingSpec"
  [] [("base_cast_time", (EInt 1500)); ("animation_lock", (EInt 100)); ("application_delay", (EInt 1070))])); ("damage_spec", (ECall "DamageSpec" []
  [("potency", (EPot (EVar "name")))]))])].

(** simulator/game_data/class_skills/healer/ast.py lines 66-93: combust *)
Definition ast_m3 : pmethod := mkMethod "combust" []
  [SAsg "name" (EStr "Combust III (dot)"); SAsg "combust_iii_dot" (ECall "Skill" [] [("name", (EVar "name")); ("is_GCD", (EBool false));
  ("damage_spec", (ECall "DamageSpec" [] [("potency", (EPot (EVar "name"))); ("damage_class", (EConst "DamageClass.MAGICAL_DOT"))]))]); SAsg "name"
  (EStr "Combust III"); SRet (ECall "Skill" [] [("name", (EVar "name")); ("is_GCD", (EBool true)); ("timing_spec", (ECall "TimingSpec" []
  [("base_cast_time", (EInt 0)); ("animation_lock", (EInt 650)); ("application_delay", (EInt 620))])); ("follow_up_skills", (ETup [(ECall "FollowUp"
  [] [("skill", (EVar "combust_iii_dot")); ("delay_after_parent_application", (EInt 0)); ("dot_duration", (EBin BMul (EInt 30) (EInt 1000)));
  ("snapshot_buffs_with_parent", (EBool true)); ("snapshot_debuffs_with_parent", (EBool true))])]))])].

(** simulator/game_data/class_skills/healer/ast.py lines 96-125: astrodyne *)
Definition ast_m4 : pmethod := mkMethod "astrodyne" []
  [SIf (EVer OGe V70) [SRet ENone] []; SAsg "name" (EStr "Astrodyne"); SRet (ECall "Skill" [] [("name", (EVar "name")); ("is_GCD", (EBool false));
  ("timing_spec", (ESelf "instant_timing_spec")); ("buff_spec", (EDict [((EConst "SimConsts.DEFAULT_CONDITION"), ENone); ((EStr
  "1 Moon, 1 Asterisk, 1 Circle"), (ECall "StatusEffectSpec" [] [("duration", (EBin BMul (EInt 15) (EInt 1000))); ("haste_time_reduction", (EFlt 1
  10)); ("damage_mult", (EFlt 21 20))])); ((EStr "1 Moon, 1 Asterisk"), (ECall "StatusEffectSpec" [] [("duration", (EBin BMul (EInt 15) (EInt 1000)));
  ("haste_time_reduction", (EFlt 1 10))])); ((EStr "1 Moon, 1 Circle"), (ECall "StatusEffectSpec" [] [("duration", (EBin BMul (EInt 15) (EInt 1000)));
  ("haste_time_reduction", (EFlt 1 10))])); ((EStr "1 Circle, 1 Asterisk"), (ECall "StatusEffectSpec" [] [("duration", (EBin BMul (EInt 15) (EInt
  1000))); ("haste_time_reduction", (EFlt 1 10))]))])); ("job_resource_spec", (ETup [(ECall "JobResourceSpec" [] [("name", (EStr "Moon")); ("change",
  (ENeg (EConst "math.inf")))]); (ECall "JobResourceSpec" [] [("name", (EStr "Asterisk")); ("change", (ENeg (EConst "math.inf")))]); (ECall
  "JobResourceSpec" [] [("name", (EStr "Circle")); ("change", (ENeg (EConst "math.inf")))])]))])].

(** simulator/game_data/class_skills/healer/ast.py lines 128-137: lightspeed *)
Definition ast_m5 : pmethod := mkMethod "lightspeed" []
  [SAsg "name" (EStr "Lightspeed"); SRet (ECall "Skill" [] [("name", (EVar "name")); ("is_GCD", (EBool false)); ("timing_spec", (ESelf
  "instant_timing_spec")); ("buff_spec", (ECall "StatusEffectSpec" [] [("duration", (EBin BMul (EInt 15) (EInt 1000))); ("flat_cast_time_reduction",
  (EInt 2500))]))])].

(** simulator/game_data/class_skills/healer/ast.py lines 140-150: gravity_ii *)
Definition ast_m6 : pmethod := mkMethod "gravity_ii" []
  [SAsg "name" (EStr "Gravity II"); SRet (ECall "Skill" [] [("name", (EVar "name")); ("is_GCD", (EBool true)); ("timing_spec", (ECall "TimingSpec" []
  [("base_cast_time", (EInt 1500)); ("animation_lock", (EInt 100)); ("application_delay", (EInt 1160))])); ("damage_spec", (ECall "DamageSpec" []
  [("potency", (EPot (EVar "name")))])); ("has_aoe", (EBool true))])].

(** simulator/game_data/class_skills/healer/ast.py lines 153-168: macrocosmos *)
Definition ast_m7 : pmethod := mkMethod "macrocosmos" []
  [SAsg "name" (EStr "Macrocosmos"); SRet (ECall "Skill" [] [("name", (EVar "name")); ("is_GCD", (EBool true)); ("timing_spec", (ECall "TimingSpec" []
  [("base_cast_time", (EInt 0)); ("animation_lock", (EInt 100)); ("application_delay", (EInt 750))])); ("damage_spec", (EDict [((EConst
  "SimConsts.DEFAULT_CONDITION"), (ECall "DamageSpec" [] [("potency", (EPot (EVar "name")))]))])); ("has_aoe", (EBool true)); ("aoe_dropoff", (EFlt 2
  5))])].

(** simulator/game_data/class_skills/healer/ast.py lines 171-181: lord_of_crowns *)
Definition ast_m8 : pmethod := mkMethod "lord_of_crowns" []
  [SAsg "name" (EStr "Lord of Crowns"); SRet (ECall "Skill" [] [("name", (EVar "name")); ("is_GCD", (EBool false)); ("timing_spec", (ECall
  "TimingSpec" [] [("base_cast_time", (EInt 0)); ("animation_lock", (EInt 650)); ("application_delay", (EInt 620))])); ("damage_spec", (ECall
  "DamageSpec" [] [("potency", (EPot (EVar "name")))])); ("has_aoe", (EBool true))])].

(** simulator/game_data/class_skills/healer/ast.py lines 184-204: card *)
Definition ast_m9 : pmethod := mkMethod "card" []
  [SAsg "name" (EStr "Card"); SRet (ECall "Skill" [] [("name", (EVar "name")); ("is_GCD", (EBool false)); ("timing_spec", (ECall "TimingSpec" []
  [("base_cast_time", (EInt 0)); ("animation_lock", (EInt 650)); ("application_delay", (EInt 620))])); ("buff_spec", (EDict [((EConst
  "SimConsts.DEFAULT_CONDITION"), (ECall "StatusEffectSpec" [] [("duration", (EBin BMul (EInt 15) (EInt 1000))); ("damage_mult", (EFlt 53 50));
  ("is_party_effect", (EBool true))])); ((EStr "Big"), (ECall "StatusEffectSpec" [] [("duration", (EBin BMul (EInt 15) (EInt 1000))); ("damage_mult",
  (EFlt 53 50)); ("is_party_effect", (EBool true))])); ((EStr "Small"), (ECall "StatusEffectSpec" [] [("duration", (EBin BMul (EInt 15) (EInt 1000)));
  ("damage_mult", (EFlt 103 100)); ("is_party_effect", (EBool true))]))])); ("off_class_default_condition", (EStr "Big"))])].

(** simulator/game_data/class_skills/healer/ast.py lines 207-219: swiftcast *)
Definition ast_m10 : pmethod := mkMethod "swiftcast" []
  [SAsg "name" (EStr "Swiftcast"); SRet (ECall "Skill" [] [("name", (EVar "name")); ("is_GCD", (EBool false)); ("timing_spec", (ESelf
  "instant_timing_spec")); ("buff_spec", (ECall "StatusEffectSpec" [] [("flat_cast_time_reduction", (EConst "math.inf")); ("duration", (EBin BMul
  (EInt 10) (EInt 1000))); ("num_uses", (EInt 1)); ("skill_allowlist", (ETup [(EStr "Glare III"); (EStr "Holy III")]))]))])].

(** simulator/game_data/class_skills/healer/ast.py lines 221-241: __get_giant_dominance_followup *)
Definition ast_m11 : pmethod := mkMethod "__get_giant_dominance_followup" []
  [SAsg "name" (EStr "Giant Dominance"); SRet (ECall "FollowUp" [] [("skill", (ECall "Skill" [] [("name", (EVar "name")); ("is_GCD", (EBool false));
  ("buff_spec", (EDict [((EConst "SimConsts.DEFAULT_CONDITION"), ENone); ((EStr "Earthly Dominance"), (ECall "StatusEffectSpec" [] [("duration",
  (ECall "int" [(EBin BMul (EFlt 101 10) (EInt 1000))] [])); ("is_party_effect", (EBool false)); ("add_to_skill_modifier_condition", (EBool true));
  ("num_uses", (EInt 1)); ("skill_allowlist", (ETup [(EStr "Stellar Explosion (pet)")]))]))]))])); ("delay_after_parent_application", (EBin BMul (EInt
  10) (EInt 1000))); ("snapshot_buffs_with_parent", (EBool false)); ("snapshot_debuffs_with_parent", (EBool false))])].

(** simulator/game_data/class_skills/healer/ast.py lines 243-267: __get_stellar_detonation_follow_up *)
Definition ast_m12 : pmethod := mkMethod "__get_stellar_detonation_follow_up" []
  [SAsg "name" (EStr "Stellar Explosion (pet)"); SRet (ECall "FollowUp" [] [("skill", (ECall "Skill" [] [("name", (EVar "name")); ("is_GCD", (EBool
  false)); ("status_effect_denylist", (ETup [(EStr "Dragon Sight")])); ("damage_spec", (EDict [((EConst "SimConsts.DEFAULT_CONDITION"), ENone); ((EStr
  "Earthly Dominance"), (ECall "DamageSpec" [] [("damage_class", (EConst "DamageClass.PET")); ("potency", (EData (EVar "name") (EStr
  "Earthly Dominance"))); ("pet_job_mod_override", (EInt 118))])); ((EStr "Giant Dominance"), (ECall "DamageSpec" [] [("damage_class", (EConst
  "DamageClass.PET")); ("potency", (EData (EVar "name") (EStr "Giant Dominance"))); ("pet_job_mod_override", (EInt 118))]))]))]));
  ("delay_after_parent_application", (EBin BMul (EInt 20) (EInt 1000))); ("snapshot_buffs_with_parent", (EBool false));
  ("snapshot_debuffs_with_parent", (EBool false))])].

(** simulator/game_data/class_skills/healer/ast.py lines 270-312: giant_dominance *)
Definition ast_m13 : pmethod := mkMethod "giant_dominance" []
  [SAsg "name" (EStr "Stellar Explosion (pet)"); SAsg "stellar_detonation_follow_up2" (ECall "FollowUp" [] [("skill", (ECall "Skill" [] [("name",
  (EVar "name")); ("is_GCD", (EBool false)); ("status_effect_denylist", (ETup [(EStr "Dragon Sight")])); ("damage_spec", (EDict [((EConst
  "SimConsts.DEFAULT_CONDITION"), ENone); ((EStr "Earthly Dominance"), (ECall "DamageSpec" [] [("damage_class", (EConst "DamageClass.PET"));
  ("potency", (EData (EVar "name") (EStr "Earthly Dominance"))); ("pet_job_mod_override", (EInt 118))])); ((EStr "Giant Dominance"), (ECall
  "DamageSpec" [] [("damage_class", (EConst "DamageClass.PET")); ("potency", (EData (EVar "name") (EStr "Giant Dominance"))); ("pet_job_mod_override",
  (EInt 118))]))]))])); ("delay_after_parent_application", (EBin BMul (EInt 10) (EInt 1000))); ("snapshot_buffs_with_parent", (EBool false));
  ("snapshot_debuffs_with_parent", (EBool false))]); SAsg "name" (EStr "Giant Dominance"); SRet (ECall "Skill" [] [("name", (EVar "name")); ("is_GCD",
  (EBool false)); ("timing_spec", (ECall "TimingSpec" [] [("base_cast_time", (EInt 0)); ("animation_lock", (EInt 0)); ("application_delay", (EInt
  0))])); ("buff_spec", (ECall "StatusEffectSpec" [] [("duration", (ECall "int" [(EBin BMul (EFlt 101 10) (EInt 1000))] [])); ("is_party_effect",
  (EBool false)); ("add_to_skill_modifier_condition", (EBool true)); ("num_uses", (EInt 1)); ("skill_allowlist", (ETup [(EStr
  "Stellar Explosion (pet)")]))])); ("follow_up_skills", (ETup [(EVar "stellar_detonation_follow_up2")])); ("has_aoe", (EBool true))])].

(** simulator/game_data/class_skills/healer/ast.py lines 315-332: earthly_dominance *)
Definition ast_m14 : pmethod := mkMethod "earthly_dominance" []
  [SAsg "name" (EStr "Earthly Dominance"); SRet (ECall "Skill" [] [("name", (EVar "name")); ("is_GCD", (EBool false)); ("timing_spec", (ECall
  "TimingSpec" [] [("base_cast_time", (EInt 0)); ("animation_lock", (EInt 0)); ("application_delay", (EInt 0))])); ("buff_spec", (ECall
  "StatusEffectSpec" [] [("duration", (ECall "int" [(EBin BMul (EFlt 101 10) (EInt 1000))] [])); ("is_party_effect", (EBool false));
  ("add_to_skill_modifier_condition", (EBool true)); ("num_uses", (EInt 1)); ("skill_allowlist", (ETup [(EStr "Stellar Explosion (pet)"); (EStr
  "Giant Dominance")]))])); ("follow_up_skills", (ETup [(EMeth "__get_giant_dominance_followup" [] []); (EMeth "__get_stellar_detonation_follow_up" []
  [])])); ("has_aoe", (EBool true))])].

(** simulator/game_data/class_skills/healer/ast.py lines 335-369: stellar_detonation *)
Definition ast_m15 : pmethod := mkMethod "stellar_detonation" []
  [SAsg "name" (EStr "Stellar Explosion (pet)"); SAsg "stellar_detonation_instant" (ECall "FollowUp" [] [("skill", (ECall "Skill" [] [("name", (EVar
  "name")); ("is_GCD", (EBool false)); ("status_effect_denylist", (ETup [(EStr "Dragon Sight")])); ("damage_spec", (EDict [((EConst
  "SimConsts.DEFAULT_CONDITION"), ENone); ((EStr "Earthly Dominance"), (ECall "DamageSpec" [] [("damage_class", (EConst "DamageClass.PET"));
  ("potency", (EData (EVar "name") (EStr "Earthly Dominance"))); ("pet_job_mod_override", (EInt 118))])); ((EStr "Giant Dominance"), (ECall
  "DamageSpec" [] [("damage_class", (EConst "DamageClass.PET")); ("potency", (EData (EVar "name") (EStr "Giant Dominance"))); ("pet_job_mod_override",
  (EInt 118))]))]))])); ("delay_after_parent_application", (EInt 0)); ("snapshot_buffs_with_parent", (EBool false)); ("snapshot_debuffs_with_parent",
  (EBool false))]); SAsg "name" (EStr "Stellar Detonation"); SRet (ECall "Skill" [] [("name", (EVar "name")); ("is_GCD", (EBool false));
  ("status_effect_denylist", (ETup [(EStr "Dragon Sight")])); ("timing_spec", (ECall "TimingSpec" [] [("base_cast_time", (EInt 0));
  ("application_delay", (EInt 0))])); ("follow_up_skills", (ETup [(EVar "stellar_detonation_instant")])); ("has_aoe", (EBool true))])].

(** simulator/game_data/class_skills/healer/ast.py lines 372-402: earthly_star *)
Definition ast_m16 : pmethod := mkMethod "earthly_star" []
  [SAsg "name" (EStr "Earthly Dominance"); SAsg "earthly_dom_follow_up" (ECall "FollowUp" [] [("skill", (ECall "Skill" [] [("name", (EVar "name"));
  ("is_GCD", (EBool false)); ("buff_spec", (ECall "StatusEffectSpec" [] [("duration", (ECall "int" [(EBin BMul (EFlt 101 10) (EInt 1000))] []));
  ("is_party_effect", (EBool false)); ("add_to_skill_modifier_condition", (EBool true)); ("num_uses", (EInt 1)); ("skill_allowlist", (ETup [(EStr
  "Stellar Explosion (pet)"); (EStr "Giant Dominance")]))]))])); ("delay_after_parent_application", (EInt 0)); ("snapshot_buffs_with_parent", (EBool
  false)); ("snapshot_debuffs_with_parent", (EBool false))]); SAsg "name" (EStr "Earthly Star"); SRet (ECall "Skill" [] [("name", (EVar "name"));
  ("is_GCD", (EBool false)); ("timing_spec", (ESelf "instant_timing_spec")); ("follow_up_skills", (ETup [(EVar "earthly_dom_follow_up"); (EMeth
  "__get_giant_dominance_followup" [] []); (EMeth "__get_stellar_detonation_follow_up" [] [])])); ("has_aoe", (EBool true))])].

(** simulator/game_data/class_skills/healer/ast.py lines 405-417: oracle *)
Definition ast_m17 : pmethod := mkMethod "oracle" []
  [SIf (ELev OLt K92) [SRet ENone] []; SAsg "name" (EStr "Oracle"); SRet (ECall "Skill" [] [("name", (EVar "name")); ("is_GCD", (EBool false));
  ("timing_spec", (ECall "TimingSpec" [] [("base_cast_time", (EInt 0)); ("animation_lock", (EInt 650)); ("application_delay", (EInt 1740))]));
  ("damage_spec", (ECall "DamageSpec" [] [("potency", (EPot (EVar "name")))])); ("has_aoe", (EBool true))])].

(** simulator/game_data/class_skills/healer/ast.py lines 424-434: helios_conjunction *)
Definition ast_m18 : pmethod := mkMethod "helios_conjunction" []
  [SIf (ELev OLt K96) [SRet ENone] []; SAsg "name" (EStr "Helios Conjunction"); SRet (ECall "Skill" [] [("name", (EVar "name")); ("is_GCD", (EBool
  false)); ("timing_spec", (ECall "TimingSpec" [] [("base_cast_time", (EInt 1500)); ("animation_lock", (EInt 650)); ("application_delay", (EInt
  620))]))])].

(** simulator/game_data/class_skills/healer/ast.py lines 436-439: draw *)
Definition ast_m19 : pmethod := mkMethod "draw" []
  [SIf (EVer OGe V70) [SRet ENone] []; SRet (ECall "Skill" [] [("name", (EStr "Draw")); ("is_GCD", (EBool false)); ("timing_spec", (ESelf
  "instant_timing_spec"))])].

(** simulator/game_data/class_skills/healer/ast.py lines 442-445: redraw *)
Definition ast_m20 : pmethod := mkMethod "redraw" []
  [SIf (EVer OGe V70) [SRet ENone] []; SRet (ECall "Skill" [] [("name", (EStr "Redraw")); ("is_GCD", (EBool false)); ("timing_spec", (ESelf
  "instant_timing_spec"))])].

(** simulator/game_data/class_skills/healer/ast.py lines 448-451: play *)
Definition ast_m21 : pmethod := mkMethod "play" []
  [SIf (EVer OGe V70) [SRet ENone] []; SRet (ECall "Skill" [] [("name", (EStr "Play")); ("is_GCD", (EBool false)); ("timing_spec", (ESelf
  "instant_timing_spec"))])].

(** simulator/game_data/class_skills/healer/ast.py lines 454-455: minor_arcana *)
Definition ast_m22 : pmethod := mkMethod "minor_arcana" []
  [SRet (ECall "Skill" [] [("name", (EStr "Minor Arcana")); ("is_GCD", (EBool false)); ("timing_spec", (ESelf "instant_timing_spec"))])].

(** simulator/game_data/class_skills/healer/ast.py lines 458-464: collective_unconscious *)
Definition ast_m23 : pmethod := mkMethod "collective_unconscious" []
  [SRet (ECall "Skill" [] [("name", (EStr "Collective Unconscious")); ("is_GCD", (EBool false)); ("timing_spec", (ESelf "instant_timing_spec"));
  ("channeling_spec", (ECall "ChannelingSpec" [] [("duration", (EInt 18000))]))])].

(** simulator/game_data/class_skills/healer/ast.py lines 467-470: astral_draw *)
Definition ast_m24 : pmethod := mkMethod "astral_draw" []
  [SIf (EVer OLt V70) [SRet ENone] []; SRet (ECall "Skill" [] [("name", (EStr "Astral Draw")); ("is_GCD", (EBool false)); ("timing_spec", (ESelf
  "instant_timing_spec"))])].

(** simulator/game_data/class_skills/healer/ast.py lines 473-476: umbral_draw *)
Definition ast_m25 : pmethod := mkMethod "umbral_draw" []
  [SIf (EVer OLt V70) [SRet ENone] []; SRet (ECall "Skill" [] [("name", (EStr "Umbral Draw")); ("is_GCD", (EBool false)); ("timing_spec", (ESelf
  "instant_timing_spec"))])].

(** simulator/game_data/class_skills/healer/ast.py lines 478-500: __get_card_skill_655 *)
Definition ast_m26 : pmethod := mkMethod "__get_card_skill_655" [("name", None); ("sign", None)]
  [SRet (ECall "Skill" [] [("name", (EVar "name")); ("is_GCD", (EBool false)); ("job_resource_spec", (EDict [((EConst "SimConsts.DEFAULT_CONDITION"),
  (ETup [(ECall "JobResourceSpec" [] [("name", (EVar "sign")); ("change", (EPos (EInt 1)))])])); ((EStr "Big"), (ECall "tuple" [] [])); ((EStr
  "Small"), (ECall "tuple" [] []))])); ("timing_spec", (ESelf "instant_timing_spec")); ("buff_spec", (EDict [((EConst "SimConsts.DEFAULT_CONDITION"),
  ENone); ((EStr "Big"), (ECall "StatusEffectSpec" [] [("duration", (EBin BMul (EInt 15) (EInt 1000))); ("damage_mult", (EFlt 53 50));
  ("is_party_effect", (EBool true))])); ((EStr "Small"), (ECall "StatusEffectSpec" [] [("duration", (EBin BMul (EInt 15) (EInt 1000)));
  ("damage_mult", (EFlt 103 100)); ("is_party_effect", (EBool true))]))])); ("off_class_default_condition", (EStr "Big"))])].

(** simulator/game_data/class_skills/healer/ast.py lines 503-524: get_card_skills_655 *)
Definition ast_m27 : pmethod := mkMethod "get_card_skills_655" []
  [SIf (EVer ONe V655) [SRet ENone] []; SAsg "res" (EList []); SAsg "skill_and_resources" (ETup [(ETup [(EStr "the Arrow"); (EStr "Moon")]); (ETup
  [(EStr "The Arrow"); (EStr "Moon")]); (ETup [(EStr "the Ewer"); (EStr "Moon")]); (ETup [(EStr "The Ewer"); (EStr "Moon")]); (ETup [(EStr
  "the Balance"); (EStr "Asterisk")]); (ETup [(EStr "The Balance"); (EStr "Asterisk")]); (ETup [(EStr "the Bole"); (EStr "Asterisk")]); (ETup [(EStr
  "The Bole"); (EStr "Asterisk")]); (ETup [(EStr "the Spire"); (EStr "Circle")]); (ETup [(EStr "The Spire"); (EStr "Circle")]); (ETup [(EStr
  "the Spear"); (EStr "Circle")]); (ETup [(EStr "The Spear"); (EStr "Circle")])]); SFor ["sk"; "resource"] true (EVar "skill_and_resources") [SApp
  "res" (EMeth "__get_card_skill_655" [(EVar "sk"); (EVar "resource")] [])]; SRet (EVar "res")].

(** simulator/game_data/class_skills/healer/ast.py lines 526-533: __get_non_damaging_card_skill *)
Definition ast_m28 : pmethod := mkMethod "__get_non_damaging_card_skill" [("name", None)]
  [SRet (ECall "Skill" [] [("name", (EVar "name")); ("is_GCD", (EBool false)); ("timing_spec", (ECall "TimingSpec" [] [("base_cast_time", (EInt 0));
  ("animation_lock", (EInt 650)); ("application_delay", (EInt 620))]))])].

(** simulator/game_data/class_skills/healer/ast.py lines 534-551: __get_damaging_card_skill *)
Definition ast_m29 : pmethod := mkMethod "__get_damaging_card_skill" [("name", None)]
  [SRet (ECall "Skill" [] [("name", (EVar "name")); ("is_GCD", (EBool false)); ("timing_spec", (ECall "TimingSpec" [] [("base_cast_time", (EInt 0));
  ("animation_lock", (EInt 650)); ("application_delay", (EInt 620))])); ("buff_spec", (EDict [((EConst "SimConsts.DEFAULT_CONDITION"), ENone); ((EStr
  "Big"), (ECall "StatusEffectSpec" [] [("duration", (EBin BMul (EInt 15) (EInt 1000))); ("damage_mult", (EFlt 53 50)); ("is_party_effect", (EBool
  true))])); ((EStr "Small"), (ECall "StatusEffectSpec" [] [("duration", (EBin BMul (EInt 15) (EInt 1000))); ("damage_mult", (EFlt 103 100));
  ("is_party_effect", (EBool true))]))])); ("off_class_default_condition", (EStr "Big"))])].

(** simulator/game_data/class_skills/healer/ast.py lines 554-580: cards *)
Definition ast_m30 : pmethod := mkMethod "cards" []
  [SIf (EVer OLt V70) [SRet ENone] []; SAsg "res" (EList []); SFor ["card_name"] false (EList [(EStr "the Arrow"); (EStr "The Arrow"); (EStr
  "the Ewer"); (EStr "The Ewer"); (EStr "the Spire"); (EStr "The Spire"); (EStr "the Bole"); (EStr "The Bole")]) [SApp "res" (EMeth
  "__get_non_damaging_card_skill" [(EVar "card_name")] [])]; SFor ["card_name"] false (EList [(EStr "the Spear"); (EStr "The Spear"); (EStr
  "the Balance"); (EStr "The Balance")]) [SApp "res" (EMeth "__get_damaging_card_skill" [(EVar "card_name")] [])]; SRet (EVar "res")].

(** simulator/game_data/class_skills/healer/ast.py lines 583-590: asterisk *)
Definition ast_m31 : pmethod := mkMethod "asterisk" []
  [SIf (EVer OGe V70) [SRet ENone] []; SAsg "name" (EStr "Asterisk"); SAsg "job_resource_settings" (ECall "JobResourceSettings" [] [("max_value",
  (EInt 1)); ("skill_allowlist", (ETup [(EStr "Astrodyne")]))]); SRet (ETup [(EVar "name"); (EVar "job_resource_settings")])].

(** simulator/game_data/class_skills/healer/ast.py lines 593-600: moon *)
Definition ast_m32 : pmethod := mkMethod "moon" []
  [SIf (EVer OGe V70) [SRet ENone] []; SAsg "name" (EStr "Moon"); SAsg "job_resource_settings" (ECall "JobResourceSettings" [] [("max_value", (EInt
  1)); ("skill_allowlist", (ETup [(EStr "Astrodyne")]))]); SRet (ETup [(EVar "name"); (EVar "job_resource_settings")])].

(** simulator/game_data/class_skills/healer/ast.py lines 603-610: circle *)
Definition ast_m33 : pmethod := mkMethod "circle" []
  [SIf (EVer OGe V70) [SRet ENone] []; SAsg "name" (EStr "Circle"); SAsg "job_resource_settings" (ECall "JobResourceSettings" [] [("max_value", (EInt
  1)); ("skill_allowlist", (ETup [(EStr "Astrodyne")]))]); SRet (ETup [(EVar "name"); (EVar "job_resource_settings")])].

(** simulator/game_data/class_skills/healer/ast.py lines 21-23: __init__ after super().__init__ *)
Definition ast_init : list stmt :=
  [SAttr "_job_class" (EStr "AST")].

(** simulator/game_data/class_skills/healer/ast.py lines 19-610: class AstSkills; the decorated methods in the order of [dir] *)
Definition ast_class : pclass := mkClass [] ast_init
  [ast_m0; ast_m1; ast_m2; ast_m3; ast_m4; ast_m5; ast_m6; ast_m7; ast_m8; ast_m9; ast_m10; ast_m11; ast_m12; ast_m13; ast_m14; ast_m15; ast_m16;
  ast_m17; ast_m18; ast_m19; ast_m20; ast_m21; ast_m22; ast_m23; ast_m24; ast_m25; ast_m26; ast_m27; ast_m28; ast_m29; ast_m30; ast_m31; ast_m32;
  ast_m33]
  ["astral_draw"; "astrodyne"; "auto"; "card"; "cards"; "collective_unconscious"; "combust"; "divination"; "draw"; "earthly_dominance";
  "earthly_star"; "fall_malefic"; "get_card_skills_655"; "giant_dominance"; "gravity_ii"; "helios_conjunction"; "lightspeed"; "lord_of_crowns";
  "macrocosmos"; "minor_arcana"; "oracle"; "play"; "redraw"; "stellar_detonation"; "swiftcast"; "umbral_draw"]
  ["asterisk"; "circle"; "moon"]
  ast_data.
