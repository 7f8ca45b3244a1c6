(** * WAR: the shipped skill definitions.

    Generated by tools/gen_game_data.py from
    simulator/game_data/class_skills/tank/war.py and simulator/game_data/class_skills/tank/war_data.py. *)

From Coq Require Import ZArith List String.
From Verif Require Import Py.
Import ListNotations.
Open Scope string_scope.
Open Scope Z_scope.

(** simulator/game_data/class_skills/tank/war_data.py lines 8-42, in dict-literal order *)
Definition war_data : data_table := [
  ("Heavy Swing", [(90, [("potency", [(V655, (EInt 200))])]); (100, [("potency", [(V70, (EInt 220))])])]);
  ("Maim", [(90, [("potency", [(V655, (EInt 300))]); ("potency_no_combo", [(V655, (EInt 150))])]); (100, [("potency", [(V70, (EInt 340))]);
  ("potency_no_combo", [(V70, (EInt 190))])])]);
  ("Storm's Path", [(90, [("potency", [(V655, (EInt 440))]); ("potency_no_combo", [(V655, (EInt 160))])]); (100, [("potency", [(V70, (EInt 480))]);
  ("potency_no_combo", [(V70, (EInt 200))])])]);
  ("Storm's Eye", [(90, [("potency", [(V655, (EInt 440))]); ("potency_no_combo", [(V655, (EInt 160))])]); (100, [("potency", [(V70, (EInt 480))]);
  ("potency_no_combo", [(V70, (EInt 200))])])]);
  ("Upheaval", [(90, [("potency", [(V655, (EInt 400))])]); (100, [("potency", [(V70, (EInt 400))])])]);
  ("Onslaught", [(90, [("potency", [(V655, (EInt 150))])]); (100, [("potency", [(V70, (EInt 150))])])]);
  ("Fell Cleave", [(90, [("potency", [(V655, (EInt 520))])]); (100, [("potency", [(V70, (EInt 580))])])]);
  ("Primal Rend", [(90, [("potency", [(V655, (EInt 700))])]); (100, [("potency", [(V70, (EInt 700))])])]);
  ("Inner Chaos", [(90, [("potency", [(V655, (EInt 660))])]); (100, [("potency", [(V655, (EInt 660))])])]);
  ("Chaotic Cyclone", [(90, [("potency", [(V655, (EInt 320)); (V70, (EInt 300))])]); (100, [("potency", [(V70, (EInt 300))])])]);
  ("Tomahawk", [(90, [("potency", [(V655, (EInt 150))])]); (100, [("potency", [(V70, (EInt 150))])])]);
  ("Overpower", [(90, [("potency", [(V655, (EInt 110))])]); (100, [("potency", [(V70, (EInt 110))])])]);
  ("Mythril Tempest", [(90, [("potency", [(V655, (EInt 150)); (V70, (EInt 140))]); ("potency_no_combo", [(V655, (EInt 100))])]); (100, [("potency",
  [(V70, (EInt 140))]); ("potency_no_combo", [(V70, (EInt 100))])])]);
  ("Orogeny", [(90, [("potency", [(V655, (EInt 150))])]); (100, [("potency", [(V70, (EInt 150))])])]);
  ("Decimate", [(90, [("potency", [(V655, (EInt 200)); (V70, (EInt 180))])]); (100, [("potency", [(V70, (EInt 180))])])]);
  ("Vengeance", [(90, [("potency", [(V655, (EInt 55))])])]);
  ("Primal Wrath", [(100, [("potency", [(V70, (EInt 700))])])]);
  ("Primal Ruination", [(100, [("potency", [(V70, (EInt 740)); (V701, (EInt 780))])])]);
  ("Damnation", [(100, [("potency", [(V70, (EInt 55))])])])].

(** simulator/game_data/class_skills/tank/war.py lines 24-37: __surging_tempest_followup *)
Definition war_m0 : pmethod := mkMethod "__surging_tempest_followup" []
  [SRet (ECall "FollowUp" [] [("skill", (ECall "Skill" [] [("name", (EStr "Surging Tempest")); ("buff_spec", (ECall "StatusEffectSpec" []
  [("duration", (EInt 30000)); ("max_duration", (EInt 60000)); ("damage_mult", (EFlt 11 10)); ("add_to_skill_modifier_condition", (EBool true))]))]));
  ("delay_after_parent_application", (EInt 0)); ("primary_target_only", (EBool true))])].

(** simulator/game_data/class_skills/tank/war.py lines 40-49: auto *)
Definition war_m1 : pmethod := mkMethod "auto" []
  [SAsg "name" (EStr "Auto"); SRet (ECall "Skill" [] [("name", (EVar "name")); ("is_GCD", (EBool false)); ("timing_spec", (ESelf "auto_timing_spec"));
  ("damage_spec", (ECall "DamageSpec" [] [("potency", (EInt 90)); ("damage_class", (EConst "DamageClass.AUTO")); ("trait_damage_mult_override", (EInt
  1))]))])].

(** simulator/game_data/class_skills/tank/war.py lines 52-62: heavy_swing *)
Definition war_m2 : pmethod := mkMethod "heavy_swing" []
  [SAsg "name" (EStr "Heavy Swing"); SRet (ECall "Skill" [] [("name", (EVar "name")); ("is_GCD", (EBool true)); ("timing_spec", (ECall "TimingSpec" []
  [("base_cast_time", (EInt 0)); ("animation_lock", (EInt 650)); ("application_delay", (EInt 532))])); ("damage_spec", (ECall "DamageSpec" []
  [("potency", (EPot (EVar "name")))])); ("combo_spec", (ETup [(ECall "ComboSpec" [] [])]))])].

(** simulator/game_data/class_skills/tank/war.py lines 65-82: maim *)
Definition war_m3 : pmethod := mkMethod "maim" []
  [SAsg "name" (EStr "Maim"); SRet (ECall "Skill" [] [("name", (EVar "name")); ("is_GCD", (EBool true)); ("timing_spec", (ECall "TimingSpec" []
  [("base_cast_time", (EInt 0)); ("animation_lock", (EInt 650)); ("application_delay", (EInt 623))])); ("combo_spec", (ETup [(ECall "ComboSpec" []
  [("combo_actions", (ETup [(EStr "Heavy Swing")]))])])); ("damage_spec", (EDict [((EConst "SimConsts.DEFAULT_CONDITION"), (ECall "DamageSpec" []
  [("potency", (EPot (EVar "name")))])); ((EStr "No Combo"), (ECall "DamageSpec" [] [("potency", (EPotNC (EVar "name")))]))]))])].

(** simulator/game_data/class_skills/tank/war.py lines 85-102: storms_path *)
Definition war_m4 : pmethod := mkMethod "storms_path" []
  [SAsg "name" (EStr "Storm's Path"); SRet (ECall "Skill" [] [("name", (EVar "name")); ("is_GCD", (EBool true)); ("timing_spec", (ECall "TimingSpec"
  [] [("base_cast_time", (EInt 0)); ("animation_lock", (EInt 650)); ("application_delay", (EInt 1515))])); ("combo_spec", (ETup [(ECall "ComboSpec" []
  [("combo_actions", (ETup [(EStr "Maim")]))])])); ("damage_spec", (EDict [((EConst "SimConsts.DEFAULT_CONDITION"), (ECall "DamageSpec" []
  [("potency", (EPot (EVar "name")))])); ((EStr "No Combo"), (ECall "DamageSpec" [] [("potency", (EPotNC (EVar "name")))]))]))])].

(** simulator/game_data/class_skills/tank/war.py lines 105-153: storms_eye *)
Definition war_m5 : pmethod := mkMethod "storms_eye" []
  [SAsg "surging_tempest_inital_follow_up" (ECall "FollowUp" [] [("skill", (ECall "Skill" [] [("name", (EStr "Surging Tempest")); ("buff_spec", (ECall
  "StatusEffectSpec" [] [("duration", (EInt 31600)); ("max_duration", (EInt 60000)); ("damage_mult", (EFlt 11 10));
  ("add_to_skill_modifier_condition", (EBool true))]))])); ("delay_after_parent_application", (EInt 0)); ("primary_target_only", (EBool true))]); SAsg
  "name" (EStr "Storm's Eye"); SAsg "storms_eye_damage_follow_up" (ECall "FollowUp" [] [("skill", (ECall "Skill" [] [("name", (EVar "name"));
  ("damage_spec", (ECall "DamageSpec" [] [("potency", (EPot (EVar "name")))]))])); ("delay_after_parent_application", (EInt 1649))]); SAsg
  "storms_eye_damage_no_combo_follow_up" (ECall "FollowUp" [] [("skill", (ECall "Skill" [] [("name", (EVar "name")); ("damage_spec", (ECall
  "DamageSpec" [] [("potency", (EPotNC (EVar "name")))]))])); ("delay_after_parent_application", (EInt 1649))]); SRet (ECall "Skill" [] [("name",
  (EVar "name")); ("is_GCD", (EBool true)); ("timing_spec", (ECall "TimingSpec" [] [("base_cast_time", (EInt 0)); ("animation_lock", (EInt 650))]));
  ("combo_spec", (ETup [(ECall "ComboSpec" [] [("combo_actions", (ETup [(EStr "Maim")]))])])); ("follow_up_skills", (EDict [((EConst
  "SimConsts.DEFAULT_CONDITION"), (ETup [(EVar "storms_eye_damage_follow_up"); (EVar "surging_tempest_inital_follow_up")])); ((EStr
  "Surging Tempest"), (ETup [(EVar "storms_eye_damage_follow_up"); (EMeth "__surging_tempest_followup" [] [])])); ((EStr "No Combo"), (ETup [(EVar
  "storms_eye_damage_no_combo_follow_up")]))]))])].

(** simulator/game_data/class_skills/tank/war.py lines 156-187: inner_release *)
Definition war_m6 : pmethod := mkMethod "inner_release" []
  [SAsg "name" (EStr "Surging Tempest"); SAsg "ir_surging_tempest_follow_up" (ECall "FollowUp" [] [("skill", (ECall "Skill" [] [("name", (EVar
  "name")); ("buff_spec", (ECall "StatusEffectSpec" [] [("duration", (EInt 10000)); ("max_duration", (EInt 60000)); ("damage_mult", (EFlt 11 10));
  ("extend_only", (EBool true)); ("add_to_skill_modifier_condition", (EBool true))]))])); ("delay_after_parent_application", (EInt 0))]); SAsg "name"
  (EStr "Inner Release"); SRet (ECall "Skill" [] [("name", (EVar "name")); ("is_GCD", (EBool false)); ("timing_spec", (ECall "TimingSpec" []
  [("base_cast_time", (EInt 0)); ("animation_lock", (EInt 650)); ("application_delay", (EInt 0))])); ("buff_spec", (ECall "StatusEffectSpec" []
  [("guaranteed_crit", (EConst "ForcedCritOrDH.FORCE_YES")); ("guaranteed_dh", (EConst "ForcedCritOrDH.FORCE_YES")); ("num_uses", (EInt 3));
  ("duration", (EBin BMul (EInt 30) (EInt 1000))); ("skill_allowlist", (ETup [(EStr "Fell Cleave"); (EStr "Decimate")]))])); ("follow_up_skills",
  (ETup [(EVar "ir_surging_tempest_follow_up")]))])].

(** simulator/game_data/class_skills/tank/war.py lines 190-199: upheaval *)
Definition war_m7 : pmethod := mkMethod "upheaval" []
  [SAsg "name" (EStr "Upheaval"); SRet (ECall "Skill" [] [("name", (EVar "name")); ("is_GCD", (EBool false)); ("timing_spec", (ECall "TimingSpec" []
  [("base_cast_time", (EInt 0)); ("animation_lock", (EInt 650)); ("application_delay", (EInt 623))])); ("damage_spec", (ECall "DamageSpec" []
  [("potency", (EPot (EVar "name")))]))])].

(** simulator/game_data/class_skills/tank/war.py lines 202-211: onslaught *)
Definition war_m8 : pmethod := mkMethod "onslaught" []
  [SAsg "name" (EStr "Onslaught"); SRet (ECall "Skill" [] [("name", (EVar "name")); ("is_GCD", (EBool false)); ("timing_spec", (ECall "TimingSpec" []
  [("base_cast_time", (EInt 0)); ("animation_lock", (EInt 650)); ("application_delay", (EInt 667))])); ("damage_spec", (ECall "DamageSpec" []
  [("potency", (EPot (EVar "name")))]))])].

(** simulator/game_data/class_skills/tank/war.py lines 214-223: fell_cleave *)
Definition war_m9 : pmethod := mkMethod "fell_cleave" []
  [SAsg "name" (EStr "Fell Cleave"); SRet (ECall "Skill" [] [("name", (EVar "name")); ("is_GCD", (EBool true)); ("timing_spec", (ECall "TimingSpec" []
  [("base_cast_time", (EInt 0)); ("animation_lock", (EInt 650)); ("application_delay", (EInt 623))])); ("damage_spec", (ECall "DamageSpec" []
  [("potency", (EPot (EVar "name")))]))])].

(** simulator/game_data/class_skills/tank/war.py lines 226-243: primal_rend *)
Definition war_m10 : pmethod := mkMethod "primal_rend" []
  [SAsg "name" (EStr "Primal Rend"); SRet (ECall "Skill" [] [("name", (EVar "name")); ("is_GCD", (EBool true)); ("timing_spec", (ECall "TimingSpec" []
  [("base_cast_time", (EInt 0)); ("animation_lock", (EInt 1300)); ("application_delay", (EInt 1160))])); ("damage_spec", (EDict [((EConst
  "SimConsts.DEFAULT_CONDITION"), (ECall "DamageSpec" [] [("potency", (EPot (EVar "name"))); ("guaranteed_crit", (EConst "ForcedCritOrDH.FORCE_YES"));
  ("guaranteed_dh", (EConst "ForcedCritOrDH.FORCE_YES"))]))])); ("has_aoe", (EBool true)); ("aoe_dropoff", (EFlt 7 10))])].

(** simulator/game_data/class_skills/tank/war.py lines 246-259: inner_chaos *)
Definition war_m11 : pmethod := mkMethod "inner_chaos" []
  [SAsg "name" (EStr "Inner Chaos"); SRet (ECall "Skill" [] [("name", (EVar "name")); ("is_GCD", (EBool true)); ("timing_spec", (ECall "TimingSpec" []
  [("base_cast_time", (EInt 0)); ("animation_lock", (EInt 650)); ("application_delay", (EInt 937))])); ("damage_spec", (ECall "DamageSpec" []
  [("potency", (EPot (EVar "name"))); ("guaranteed_crit", (EConst "ForcedCritOrDH.FORCE_YES")); ("guaranteed_dh", (EConst
  "ForcedCritOrDH.FORCE_YES"))]))])].

(** simulator/game_data/class_skills/tank/war.py lines 262-276: chaotic_cyclone *)
Definition war_m12 : pmethod := mkMethod "chaotic_cyclone" []
  [SAsg "name" (EStr "Chaotic Cyclone"); SRet (ECall "Skill" [] [("name", (EVar "name")); ("is_GCD", (EBool true)); ("timing_spec", (ECall
  "TimingSpec" [] [("base_cast_time", (EInt 0)); ("animation_lock", (EInt 650)); ("application_delay", (EInt 1430))])); ("damage_spec", (ECall
  "DamageSpec" [] [("potency", (EPot (EVar "name"))); ("guaranteed_crit", (EConst "ForcedCritOrDH.FORCE_YES")); ("guaranteed_dh", (EConst
  "ForcedCritOrDH.FORCE_YES"))])); ("has_aoe", (EBool true))])].

(** simulator/game_data/class_skills/tank/war.py lines 279-288: tomahawk *)
Definition war_m13 : pmethod := mkMethod "tomahawk" []
  [SAsg "name" (EStr "Tomahawk"); SRet (ECall "Skill" [] [("name", (EVar "name")); ("is_GCD", (EBool true)); ("timing_spec", (ECall "TimingSpec" []
  [("base_cast_time", (EInt 0)); ("animation_lock", (EInt 650)); ("application_delay", (EInt 713))])); ("damage_spec", (ECall "DamageSpec" []
  [("potency", (EPot (EVar "name")))]))])].

(** simulator/game_data/class_skills/tank/war.py lines 291-302: overpower *)
Definition war_m14 : pmethod := mkMethod "overpower" []
  [SAsg "name" (EStr "Overpower"); SRet (ECall "Skill" [] [("name", (EVar "name")); ("is_GCD", (EBool true)); ("timing_spec", (ECall "TimingSpec" []
  [("base_cast_time", (EInt 0)); ("animation_lock", (EInt 650)); ("application_delay", (EInt 625))])); ("combo_spec", (ETup [(ECall "ComboSpec" []
  [])])); ("damage_spec", (ECall "DamageSpec" [] [("potency", (EPot (EVar "name")))])); ("has_aoe", (EBool true))])].

(** simulator/game_data/class_skills/tank/war.py lines 305-357: mythril_tempest *)
Definition war_m15 : pmethod := mkMethod "mythril_tempest" []
  [SAsg "name" (EStr "Surging Tempest"); SAsg "mythril_tempest_inital_follow_up" (ECall "FollowUp" [] [("skill", (ECall "Skill" [] [("name", (EVar
  "name")); ("buff_spec", (ECall "StatusEffectSpec" [] [("duration", (EInt 30470)); ("max_duration", (EInt 60000)); ("damage_mult", (EFlt 11 10));
  ("add_to_skill_modifier_condition", (EBool true))]))])); ("delay_after_parent_application", (EInt 0)); ("primary_target_only", (EBool true))]); SAsg
  "name" (EStr "Mythril Tempest"); SAsg "mythril_tempest_damage_follow_up" (ECall "FollowUp" [] [("skill", (ECall "Skill" [] [("name", (EVar "name"));
  ("damage_spec", (ECall "DamageSpec" [] [("potency", (EPot (EVar "name")))]))])); ("delay_after_parent_application", (EInt 490));
  ("primary_target_only", (EBool false))]); SAsg "mythril_tempest_damage_no_combo_follow_up" (ECall "FollowUp" [] [("skill", (ECall "Skill" []
  [("name", (EVar "name")); ("damage_spec", (ECall "DamageSpec" [] [("potency", (EPotNC (EVar "name")))]))])); ("delay_after_parent_application",
  (EInt 490)); ("primary_target_only", (EBool false))]); SRet (ECall "Skill" [] [("name", (EVar "name")); ("is_GCD", (EBool true)); ("timing_spec",
  (ECall "TimingSpec" [] [("base_cast_time", (EInt 0)); ("animation_lock", (EInt 650))])); ("combo_spec", (ETup [(ECall "ComboSpec" []
  [("combo_actions", (ETup [(EStr "Overpower")]))])])); ("follow_up_skills", (EDict [((EConst "SimConsts.DEFAULT_CONDITION"), (ETup [(EVar
  "mythril_tempest_damage_follow_up"); (EVar "mythril_tempest_inital_follow_up")])); ((EStr "Surging Tempest"), (ETup [(EVar
  "mythril_tempest_damage_follow_up"); (EMeth "__surging_tempest_followup" [] [])])); ((EStr "No Combo"), (ETup [(EVar
  "mythril_tempest_damage_no_combo_follow_up")]))])); ("has_aoe", (EBool true))])].

(** simulator/game_data/class_skills/tank/war.py lines 360-370: orogeny *)
Definition war_m16 : pmethod := mkMethod "orogeny" []
  [SAsg "name" (EStr "Orogeny"); SRet (ECall "Skill" [] [("name", (EVar "name")); ("is_GCD", (EBool false)); ("timing_spec", (ECall "TimingSpec" []
  [("base_cast_time", (EInt 0)); ("animation_lock", (EInt 650)); ("application_delay", (EInt 668))])); ("damage_spec", (ECall "DamageSpec" []
  [("potency", (EPot (EVar "name")))])); ("has_aoe", (EBool true))])].

(** simulator/game_data/class_skills/tank/war.py lines 373-383: decimate *)
Definition war_m17 : pmethod := mkMethod "decimate" []
  [SAsg "name" (EStr "Decimate"); SRet (ECall "Skill" [] [("name", (EVar "name")); ("is_GCD", (EBool true)); ("timing_spec", (ECall "TimingSpec" []
  [("base_cast_time", (EInt 0)); ("animation_lock", (EInt 650)); ("application_delay", (EInt 1831))])); ("damage_spec", (ECall "DamageSpec" []
  [("potency", (EPot (EVar "name")))])); ("has_aoe", (EBool true))])].

(** simulator/game_data/class_skills/tank/war.py lines 386-404: vengance *)
Definition war_m18 : pmethod := mkMethod "vengance" []
  [SIf (ELev OGe K92) [SRet ENone] []; SAsg "name" (EStr "Vengeance"); SRet (ECall "Skill" [] [("name", (EVar "name")); ("is_GCD", (EBool false));
  ("damage_spec", (EDict [((EConst "SimConsts.DEFAULT_CONDITION"), ENone); ((EStr "Retaliation"), (ECall "DamageSpec" [] [("potency", (EPot (EVar
  "name")))]))])); ("timing_spec", (EDict [((EConst "SimConsts.DEFAULT_CONDITION"), (ESelf "instant_timing_spec")); ((EStr "Retaliation"), (ECall
  "TimingSpec" [] [("base_cast_time", (EInt 0)); ("animation_lock", (EInt 0)); ("application_delay", (EInt 534))]))]))])].

(** simulator/game_data/class_skills/tank/war.py lines 407-425: damnation *)
Definition war_m19 : pmethod := mkMethod "damnation" []
  [SIf (ELev OLt K92) [SRet ENone] []; SAsg "name" (EStr "Damnation"); SRet (ECall "Skill" [] [("name", (EVar "name")); ("is_GCD", (EBool false));
  ("damage_spec", (EDict [((EConst "SimConsts.DEFAULT_CONDITION"), ENone); ((EStr "Retaliation"), (ECall "DamageSpec" [] [("potency", (EPot (EVar
  "name")))]))])); ("timing_spec", (EDict [((EConst "SimConsts.DEFAULT_CONDITION"), (ESelf "instant_timing_spec")); ((EStr "Retaliation"), (ECall
  "TimingSpec" [] [("base_cast_time", (EInt 0)); ("animation_lock", (EInt 0)); ("application_delay", (EInt 534))]))]))])].

(** simulator/game_data/class_skills/tank/war.py lines 428-445: primal_wrath *)
Definition war_m20 : pmethod := mkMethod "primal_wrath" []
  [SIf (ELev OLt K96) [SRet ENone] []; SAsg "name" (EStr "Primal Wrath"); SRet (ECall "Skill" [] [("name", (EVar "name")); ("is_GCD", (EBool false));
  ("timing_spec", (ECall "TimingSpec" [] [("base_cast_time", (EInt 0)); ("animation_lock", (EInt 650)); ("application_delay", (EInt 1150))]));
  ("damage_spec", (EDict [((EConst "SimConsts.DEFAULT_CONDITION"), (ECall "DamageSpec" [] [("potency", (EPot (EVar "name")))]))])); ("has_aoe", (EBool
  true)); ("aoe_dropoff", (EFlt 7 10))])].

(** simulator/game_data/class_skills/tank/war.py lines 448-467: primal_ruination *)
Definition war_m21 : pmethod := mkMethod "primal_ruination" []
  [SIf (ELev OLt K100) [SRet ENone] []; SAsg "name" (EStr "Primal Ruination"); SRet (ECall "Skill" [] [("name", (EVar "name")); ("is_GCD", (EBool
  true)); ("timing_spec", (ECall "TimingSpec" [] [("base_cast_time", (EInt 0)); ("animation_lock", (EInt 1300)); ("application_delay", (EInt
  1060))])); ("damage_spec", (EDict [((EConst "SimConsts.DEFAULT_CONDITION"), (ECall "DamageSpec" [] [("potency", (EPot (EVar "name")));
  ("guaranteed_crit", (EConst "ForcedCritOrDH.FORCE_YES")); ("guaranteed_dh", (EConst "ForcedCritOrDH.FORCE_YES"))]))])); ("has_aoe", (EBool true));
  ("aoe_dropoff", (EFlt 7 10))])].

(** simulator/game_data/class_skills/tank/war.py lines 473-476: infuriate *)
Definition war_m22 : pmethod := mkMethod "infuriate" []
  [SRet (ECall "Skill" [] [("name", (EStr "Infuriate")); ("is_GCD", (EBool false)); ("timing_spec", (ESelf "instant_timing_spec"))])].

(** simulator/game_data/class_skills/tank/war.py lines 479-482: defiance *)
Definition war_m23 : pmethod := mkMethod "defiance" []
  [SRet (ECall "Skill" [] [("name", (EStr "Defiance")); ("is_GCD", (EBool false)); ("timing_spec", (ESelf "instant_timing_spec"))])].

(** simulator/game_data/class_skills/tank/war.py lines 485-488: thrill *)
Definition war_m24 : pmethod := mkMethod "thrill" []
  [SRet (ECall "Skill" [] [("name", (EStr "Thrill of Battle")); ("is_GCD", (EBool false)); ("timing_spec", (ESelf "instant_timing_spec"))])].

(** simulator/game_data/class_skills/tank/war.py lines 491-494: holmgang *)
Definition war_m25 : pmethod := mkMethod "holmgang" []
  [SRet (ECall "Skill" [] [("name", (EStr "Holmgang")); ("is_GCD", (EBool false)); ("timing_spec", (ESelf "instant_timing_spec"))])].

(** simulator/game_data/class_skills/tank/war.py lines 497-500: equilibrium *)
Definition war_m26 : pmethod := mkMethod "equilibrium" []
  [SRet (ECall "Skill" [] [("name", (EStr "Equilibrium")); ("is_GCD", (EBool false)); ("timing_spec", (ESelf "instant_timing_spec"))])].

(** simulator/game_data/class_skills/tank/war.py lines 503-506: shake *)
Definition war_m27 : pmethod := mkMethod "shake" []
  [SRet (ECall "Skill" [] [("name", (EStr "Shake It Off")); ("is_GCD", (EBool false)); ("timing_spec", (ESelf "instant_timing_spec"))])].

(** simulator/game_data/class_skills/tank/war.py lines 509-512: nascent *)
Definition war_m28 : pmethod := mkMethod "nascent" []
  [SRet (ECall "Skill" [] [("name", (EStr "Nascent Flash")); ("is_GCD", (EBool false)); ("timing_spec", (ESelf "instant_timing_spec"))])].

(** simulator/game_data/class_skills/tank/war.py lines 515-518: bloodwhetting *)
Definition war_m29 : pmethod := mkMethod "bloodwhetting" []
  [SRet (ECall "Skill" [] [("name", (EStr "Bloodwhetting")); ("is_GCD", (EBool false)); ("timing_spec", (ESelf "instant_timing_spec"))])].

(** simulator/game_data/class_skills/tank/war.py lines 521-522: rampart *)
Definition war_m30 : pmethod := mkMethod "rampart" []
  [SRet (ECall "Skill" [] [("name", (EStr "Rampart")); ("is_GCD", (EBool false)); ("timing_spec", (ESelf "instant_timing_spec"))])].

(** simulator/game_data/class_skills/tank/war.py lines 525-526: provoke *)
Definition war_m31 : pmethod := mkMethod "provoke" []
  [SRet (ECall "Skill" [] [("name", (EStr "Provoke")); ("is_GCD", (EBool false)); ("timing_spec", (ESelf "instant_timing_spec"))])].

(** simulator/game_data/class_skills/tank/war.py lines 529-532: reprisal *)
Definition war_m32 : pmethod := mkMethod "reprisal" []
  [SRet (ECall "Skill" [] [("name", (EStr "Reprisal")); ("is_GCD", (EBool false)); ("timing_spec", (ESelf "instant_timing_spec"))])].

(** simulator/game_data/class_skills/tank/war.py lines 535-538: arms_length *)
Definition war_m33 : pmethod := mkMethod "arms_length" []
  [SRet (ECall "Skill" [] [("name", (EStr "Arm's Length")); ("is_GCD", (EBool false)); ("timing_spec", (ESelf "instant_timing_spec"))])].

(** simulator/game_data/class_skills/tank/war.py lines 541-542: shirk *)
Definition war_m34 : pmethod := mkMethod "shirk" []
  [SRet (ECall "Skill" [] [("name", (EStr "Shirk")); ("is_GCD", (EBool false)); ("timing_spec", (ESelf "instant_timing_spec"))])].

(** simulator/game_data/class_skills/tank/war.py lines 20-22: __init__ after super().__init__ *)
Definition war_init : list stmt :=
  [SAttr "_job_class" (EStr "WAR")].

(** simulator/game_data/class_skills/tank/war.py lines 18-542: class WarSkills; the decorated methods in the order of [dir] *)
Definition war_class : pclass := mkClass [] war_init
  [war_m0; war_m1; war_m2; war_m3; war_m4; war_m5; war_m6; war_m7; war_m8; war_m9; war_m10; war_m11; war_m12; war_m13; war_m14; war_m15; war_m16;
  war_m17; war_m18; war_m19; war_m20; war_m21; war_m22; war_m23; war_m24; war_m25; war_m26; war_m27; war_m28; war_m29; war_m30; war_m31; war_m32;
  war_m33; war_m34]
  ["arms_length"; "auto"; "bloodwhetting"; "chaotic_cyclone"; "damnation"; "decimate"; "defiance"; "equilibrium"; "fell_cleave"; "heavy_swing";
  "holmgang"; "infuriate"; "inner_chaos"; "inner_release"; "maim"; "mythril_tempest"; "nascent"; "onslaught"; "orogeny"; "overpower"; "primal_rend";
  "primal_ruination"; "primal_wrath"; "provoke"; "rampart"; "reprisal"; "shake"; "shirk"; "storms_eye"; "storms_path"; "thrill"; "tomahawk";
  "upheaval"; "vengance"]
  []
  war_data.
