(** * BRD: the shipped skill definitions.

    Generated by tools/gen_game_data.py from
    simulator/game_data/class_skills/ranged/brd.py and simulator/game_data/class_skills/ranged/brd_data.py. *)

From Coq Require Import ZArith List String.
From Verif Require Import Py.
Import ListNotations.
Open Scope string_scope.
Open Scope Z_scope.

(** simulator/game_data/class_skills/ranged/brd_data.py lines 8-108, in dict-literal order *)
Definition brd_data : data_table := [
  ("Stormbite (dot)", [(90, [("potency", [(V655, (EInt 25))])]); (100, [("potency", [(V70, (EInt 25))])])]);
  ("Caustic Bite (dot)", [(90, [("potency", [(V655, (EInt 20))])]); (100, [("potency", [(V70, (EInt 20))])])]);
  ("Bloodletter", [(90, [("potency", [(V655, (EInt 110)); (V70, (EInt 130))])]); (100, [("potency", [(V70, (EInt 130))])])]);
  ("Mage's Ballad", [(90, [("potency", [(V655, (EInt 100))])])]);
  ("Army's Paeon", [(90, [("potency", [(V655, (EInt 100))])])]);
  ("Rain of Death", [(90, [("potency", [(V655, (EInt 100))])]); (100, [("potency", [(V70, (EInt 100))])])]);
  ("Battle Voice", [(90, [("duration", [(V655, (EBin BMul (EInt 15) (EInt 1000))); (V70, (EBin BMul (EInt 20) (EInt 1000)))])]); (100, [("duration",
  [(V70, (EBin BMul (EInt 20) (EInt 1000)))])])]);
  ("The Wanderer's Minuet", [(90, [("potency", [(V655, (EInt 100))])])]);
  ("Pitch Perfect", [(90, [("1 Repertoire", [(V655, (EInt 100))]); ("2 Repertoire", [(V655, (EInt 220))]); ("3 Repertoire", [(V655, (EInt 360))])]);
  (100, [("1 Repertoire", [(V70, (EInt 100))]); ("2 Repertoire", [(V70, (EInt 220))]); ("3 Repertoire", [(V70, (EInt 360))])])]);
  ("Empyreal Arrow", [(90, [("potency", [(V655, (EInt 240))])]); (100, [("potency", [(V70, (EInt 260))])])]);
  ("Iron Jaws", [(90, [("potency", [(V655, (EInt 100))])]); (100, [("potency", [(V70, (EInt 100))])])]);
  ("Sidewinder", [(90, [("potency", [(V655, (EInt 320))])]); (100, [("potency", [(V70, (EInt 400))])])]);
  ("Caustic Bite", [(90, [("potency", [(V655, (EInt 150))])]); (100, [("potency", [(V70, (EInt 150))])])]);
  ("Stormbite", [(90, [("potency", [(V655, (EInt 100))])]); (100, [("potency", [(V70, (EInt 100))])])]);
  ("Refulgent Arrow", [(90, [("potency", [(V655, (EInt 280)); (V70, (EInt 260))])]); (100, [("potency", [(V70, (EInt 280))])])]);
  ("Shadowbite", [(90, [("potency", [(V655, (EInt 170))]); ("potency_barrage", [(V655, (EInt 270))])]); (100, [("potency", [(V70, (EInt 170))]);
  ("potency_barrage", [(V70, (EInt 270))])])]);
  ("Burst Shot", [(90, [("potency", [(V655, (EInt 220)); (V70, (EInt 200))])]); (100, [("potency", [(V70, (EInt 220))])])]);
  ("Apex Arrow", [(90, [("20 Soul Voice", [(V655, (EInt 100))]); ("25 Soul Voice", [(V655, (EInt 125))]); ("30 Soul Voice", [(V655, (EInt 150))]);
  ("35 Soul Voice", [(V655, (EInt 175))]); ("40 Soul Voice", [(V655, (EInt 200))]); ("45 Soul Voice", [(V655, (EInt 225))]); ("50 Soul Voice", [(V655,
  (EInt 250))]); ("55 Soul Voice", [(V655, (EInt 275))]); ("60 Soul Voice", [(V655, (EInt 300))]); ("65 Soul Voice", [(V655, (EInt 325))]);
  ("70 Soul Voice", [(V655, (EInt 350))]); ("75 Soul Voice", [(V655, (EInt 375))]); ("80 Soul Voice", [(V655, (EInt 400))]); ("85 Soul Voice", [(V655,
  (EInt 425))]); ("90 Soul Voice", [(V655, (EInt 450))]); ("95 Soul Voice", [(V655, (EInt 475))]); ("100 Soul Voice", [(V655, (EInt 500))])]); (100,
  [("20 Soul Voice", [(V70, (EInt 120))]); ("25 Soul Voice", [(V70, (EInt 150))]); ("30 Soul Voice", [(V70, (EInt 180))]); ("35 Soul Voice", [(V70,
  (EInt 210))]); ("40 Soul Voice", [(V70, (EInt 240))]); ("45 Soul Voice", [(V70, (EInt 270))]); ("50 Soul Voice", [(V70, (EInt 300))]);
  ("55 Soul Voice", [(V70, (EInt 330))]); ("60 Soul Voice", [(V70, (EInt 360))]); ("65 Soul Voice", [(V70, (EInt 390))]); ("70 Soul Voice", [(V70,
  (EInt 420))]); ("75 Soul Voice", [(V70, (EInt 450))]); ("80 Soul Voice", [(V70, (EInt 480))]); ("85 Soul Voice", [(V70, (EInt 510))]);
  ("90 Soul Voice", [(V70, (EInt 540))]); ("95 Soul Voice", [(V70, (EInt 570))]); ("100 Soul Voice", [(V70, (EInt 600))])])]);
  ("Ladonsbite", [(90, [("potency", [(V655, (EInt 130))])]); (100, [("potency", [(V70, (EInt 130))])])]);
  ("Blast Arrow", [(90, [("potency", [(V655, (EInt 600))])]); (100, [("potency", [(V70, (EInt 600))])])]);
  ("Radiant Finale", [(90, [("duration", [(V655, (EBin BMul (EInt 15) (EInt 1000))); (V70, (EBin BMul (EInt 20) (EInt 1000)))])]); (100, [("duration",
  [(V70, (EBin BMul (EInt 20) (EInt 1000)))])])]);
  ("Heartbreak Shot", [(100, [("potency", [(V70, (EInt 180))])])]);
  ("Resonant Arrow", [(100, [("potency", [(V70, (EInt 600))])])]);
  ("Radiant Encore", [(100, [("3 Encore", [(V70, (EInt 900))]); ("2 Encore", [(V70, (EInt 600))]); ("1 Encore", [(V70, (EInt 500))])])])].

(** simulator/game_data/class_skills/ranged/brd.py lines 25-34: mages_coda *)
Definition brd_m0 : pmethod := mkMethod "mages_coda" []
  [SAsg "name" (EStr "Mage's Coda"); SAsg "job_resource_settings" (ECall "JobResourceSettings" [] [("max_value", (EInt 1)); ("skill_allowlist", (ETup
  [(EStr "Mage's Ballad"); (EStr "Radiant Finale")]))]); SRet (ETup [(EVar "name"); (EVar "job_resource_settings")])].

(** simulator/game_data/class_skills/ranged/brd.py lines 37-46: armys_coda *)
Definition brd_m1 : pmethod := mkMethod "armys_coda" []
  [SAsg "name" (EStr "Army's Coda"); SAsg "job_resource_settings" (ECall "JobResourceSettings" [] [("max_value", (EInt 1)); ("skill_allowlist", (ETup
  [(EStr "Army's Paeon"); (EStr "Radiant Finale")]))]); SRet (ETup [(EVar "name"); (EVar "job_resource_settings")])].

(** simulator/game_data/class_skills/ranged/brd.py lines 49-58: wanderers_coda *)
Definition brd_m2 : pmethod := mkMethod "wanderers_coda" []
  [SAsg "name" (EStr "Wanderer's Coda"); SAsg "job_resource_settings" (ECall "JobResourceSettings" [] [("max_value", (EInt 1)); ("skill_allowlist",
  (ETup [(EStr "The Wanderer's Minuet"); (EStr "Radiant Finale")]))]); SRet (ETup [(EVar "name"); (EVar "job_resource_settings")])].

(** simulator/game_data/class_skills/ranged/brd.py lines 61-70: soul_voice *)
Definition brd_m3 : pmethod := mkMethod "soul_voice" []
  [SAsg "name" (EStr "Soul Voice"); SAsg "job_resource_settings" (ECall "JobResourceSettings" [] [("max_value", (EInt 100)); ("skill_allowlist", (ETup
  [(EStr "Apex Arrow"); (EStr "Add Soul Voice")]))]); SRet (ETup [(EVar "name"); (EVar "job_resource_settings")])].

(** simulator/game_data/class_skills/ranged/brd.py lines 73-82: repertoire *)
Definition brd_m4 : pmethod := mkMethod "repertoire" []
  [SAsg "name" (EStr "Repertoire"); SAsg "job_resource_settings" (ECall "JobResourceSettings" [] [("max_value", (EInt 3)); ("skill_allowlist", (ETup
  [(EStr "Pitch Perfect"); (EStr "Add Repertoire")]))]); SRet (ETup [(EVar "name"); (EVar "job_resource_settings")])].

(** simulator/game_data/class_skills/ranged/brd.py lines 85-94: auto *)
Definition brd_m5 : pmethod := mkMethod "auto" []
  [SAsg "name" (EStr "Shot"); SRet (ECall "Skill" [] [("name", (EVar "name")); ("is_GCD", (EBool false)); ("timing_spec", (ESelf "shot_timing_spec"));
  ("damage_spec", (ECall "DamageSpec" [] [("potency", (EInt 80)); ("damage_class", (EConst "DamageClass.AUTO")); ("trait_damage_mult_override", (EInt
  1))]))])].

(** simulator/game_data/class_skills/ranged/brd.py lines 96-111: __get_stormbite_follow_up *)
Definition brd_m6 : pmethod := mkMethod "__get_stormbite_follow_up" []
  [SAsg "name" (EStr "Stormbite (dot)"); SRet (ECall "FollowUp" [] [("skill", (ECall "Skill" [] [("name", (EVar "name")); ("is_GCD", (EBool false));
  ("damage_spec", (ECall "DamageSpec" [] [("potency", (EPot (EVar "name"))); ("damage_class", (EConst "DamageClass.PHYSICAL_DOT"))]))]));
  ("delay_after_parent_application", (EInt 0)); ("dot_duration", (EBin BMul (EInt 45) (EInt 1000))); ("snapshot_buffs_with_parent", (EBool true));
  ("snapshot_debuffs_with_parent", (EBool true))])].

(** simulator/game_data/class_skills/ranged/brd.py lines 113-128: __get_caustic_bite_follow_up *)
Definition brd_m7 : pmethod := mkMethod "__get_caustic_bite_follow_up" []
  [SAsg "name" (EStr "Caustic Bite (dot)"); SRet (ECall "FollowUp" [] [("skill", (ECall "Skill" [] [("name", (EVar "name")); ("is_GCD", (EBool
  false)); ("damage_spec", (ECall "DamageSpec" [] [("potency", (EPot (EVar "name"))); ("damage_class", (EConst "DamageClass.PHYSICAL_DOT"))]))]));
  ("delay_after_parent_application", (EInt 0)); ("dot_duration", (EBin BMul (EInt 45) (EInt 1000))); ("snapshot_buffs_with_parent", (EBool true));
  ("snapshot_debuffs_with_parent", (EBool true))])].

(** simulator/game_data/class_skills/ranged/brd.py lines 131-275: armys_paeon *)
Definition brd_m8 : pmethod := mkMethod "armys_paeon" []
  [SAsg "name" (EStr "Army's Paeon"); SAsg "army_paeon_rep1" (ECall "FollowUp" [] [("skill", (ECall "Skill" [] [("name", (EVar "name")); ("is_GCD",
  (EBool false)); ("buff_spec", (ECall "StatusEffectSpec" [] [("haste_time_reduction", (EFlt 1 25)); ("auto_attack_delay_reduction", (EFlt 1 25));
  ("duration", (EBin BMul (EInt 45) (EInt 1000)))]))])); ("delay_after_parent_application", (EInt 0))]); SAsg "army_paeon_rep2" (ECall "FollowUp" []
  [("skill", (ECall "Skill" [] [("name", (EVar "name")); ("is_GCD", (EBool false)); ("buff_spec", (ECall "StatusEffectSpec" []
  [("haste_time_reduction", (EFlt 2 25)); ("auto_attack_delay_reduction", (EFlt 2 25)); ("duration", (EBin BMul (EInt 45) (EInt 1000)))]))]));
  ("delay_after_parent_application", (EInt 0))]); SAsg "army_paeon_rep3" (ECall "FollowUp" [] [("skill", (ECall "Skill" [] [("name", (EVar "name"));
  ("is_GCD", (EBool false)); ("buff_spec", (ECall "StatusEffectSpec" [] [("haste_time_reduction", (EFlt 3 25)); ("auto_attack_delay_reduction", (EFlt
  3 25)); ("duration", (EBin BMul (EInt 45) (EInt 1000)))]))])); ("delay_after_parent_application", (EInt 0))]); SAsg "army_paeon_rep4" (ECall
  "FollowUp" [] [("skill", (ECall "Skill" [] [("name", (EVar "name")); ("is_GCD", (EBool false)); ("buff_spec", (ECall "StatusEffectSpec" []
  [("haste_time_reduction", (EFlt 4 25)); ("auto_attack_delay_reduction", (EFlt 4 25)); ("duration", (EBin BMul (EInt 45) (EInt 1000)))]))]));
  ("delay_after_parent_application", (EInt 0))]); SRet (ECall "Skill" [] [("name", (EVar "name")); ("is_GCD", (EBool false)); ("damage_spec", (EIf
  (EVer OGe V70) ENone (EDict [((EConst "SimConsts.DEFAULT_CONDITION"), (ECall "DamageSpec" [] [("potency", (EPot (EVar "name")));
  ("trait_damage_mult_override", (EFlt 1 1))])); ((EStr "Buff Only"), ENone); ((EStr "1 Repertoire"), ENone); ((EStr "2 Repertoire"), ENone); ((EStr
  "3 Repertoire"), ENone); ((EStr "4 Repertoire"), ENone)]))); ("buff_spec", (EDict [((EConst "SimConsts.DEFAULT_CONDITION"), (ECall
  "StatusEffectSpec" [] [("dh_rate_add", (EFlt 3 100)); ("duration", (EBin BMul (EInt 45) (EInt 1000))); ("is_party_effect", (EBool true));
  ("extends_existing_duration", (EBool false)); ("expires_status_effects", (ETup [(EStr "The Wanderer's Minuet"); (EStr "Mage's Ballad")]))])); ((EStr
  "Buff Only"), (ECall "StatusEffectSpec" [] [("dh_rate_add", (EFlt 3 100)); ("duration", (EBin BMul (EInt 45) (EInt 1000))); ("is_party_effect",
  (EBool true)); ("extends_existing_duration", (EBool true)); ("expires_status_effects", (ETup [(EStr "The Wanderer's Minuet"); (EStr
  "Mage's Ballad")]))])); ((EStr "From Log, Buff Only"), (ECall "StatusEffectSpec" [] [("dh_rate_add", (EFlt 3 100)); ("duration", (EBin BMul (EInt 5)
  (EInt 1000))); ("max_duration", (EBin BMul (EInt 5) (EInt 1000))); ("is_party_effect", (EBool true)); ("extends_existing_duration", (EBool true));
  ("expires_status_effects", (ETup [(EStr "The Wanderer's Minuet"); (EStr "Mage's Ballad")]))])); ((EStr "From Log"), (ECall "StatusEffectSpec" []
  [("dh_rate_add", (EFlt 3 100)); ("duration", (EBin BMul (EInt 5) (EInt 1000))); ("max_duration", (EBin BMul (EInt 5) (EInt 1000)));
  ("is_party_effect", (EBool true)); ("extends_existing_duration", (EBool true)); ("expires_status_effects", (ETup [(EStr "The Wanderer's Minuet");
  (EStr "Mage's Ballad")]))])); ((EStr "1 Repertoire"), ENone); ((EStr "2 Repertoire"), ENone); ((EStr "3 Repertoire"), ENone); ((EStr
  "4 Repertoire"), ENone)])); ("timing_spec", (EDict [((EConst "SimConsts.DEFAULT_CONDITION"), (ESelf "instant_timing_spec")); ((EStr "Buff Only"),
  (ECall "TimingSpec" [] [("base_cast_time", (EInt 0)); ("animation_lock", (EInt 0))])); ((EStr "1 Repertoire"), (ECall "TimingSpec" []
  [("base_cast_time", (EInt 0)); ("animation_lock", (EInt 0))])); ((EStr "2 Repertoire"), (ECall "TimingSpec" [] [("base_cast_time", (EInt 0));
  ("animation_lock", (EInt 0))])); ((EStr "3 Repertoire"), (ECall "TimingSpec" [] [("base_cast_time", (EInt 0)); ("animation_lock", (EInt 0))]));
  ((EStr "4 Repertoire"), (ECall "TimingSpec" [] [("base_cast_time", (EInt 0)); ("animation_lock", (EInt 0))]))])); ("job_resource_spec", (EDict
  [((EConst "SimConsts.DEFAULT_CONDITION"), (ETup [(ECall "JobResourceSpec" [] [("name", (EStr "Army's Coda")); ("change", (EInt 1))])])); ((EStr
  "Buff Only"), (ECall "tuple" [] [])); ((EStr "1 Repertoire"), (ETup [(ECall "JobResourceSpec" [] [("name", (EStr "Army's Coda")); ("change", (EInt
  1))])])); ((EStr "2 Repertoire"), (ETup [(ECall "JobResourceSpec" [] [("name", (EStr "Army's Coda")); ("change", (EInt 1))])])); ((EStr
  "3 Repertoire"), (ETup [(ECall "JobResourceSpec" [] [("name", (EStr "Army's Coda")); ("change", (EInt 1))])])); ((EStr "4 Repertoire"), (ETup
  [(ECall "JobResourceSpec" [] [("name", (EStr "Army's Coda")); ("change", (EInt 1))])]))])); ("follow_up_skills", (EDict [((EConst
  "SimConsts.DEFAULT_CONDITION"), (ECall "tuple" [] [])); ((EStr "Buff Only"), (ECall "tuple" [] [])); ((EStr "1 Repertoire"), (ETup [(EVar
  "army_paeon_rep1")])); ((EStr "2 Repertoire"), (ETup [(EVar "army_paeon_rep2")])); ((EStr "3 Repertoire"), (ETup [(EVar "army_paeon_rep3")]));
  ((EStr "4 Repertoire"), (ETup [(EVar "army_paeon_rep4")]))])); ("off_class_default_condition", (EStr "Buff Only"))])].

(** simulator/game_data/class_skills/ranged/brd.py lines 277-299: __get_army_muse_follow_ups *)
Definition brd_m9 : pmethod := mkMethod "__get_army_muse_follow_ups" []
  [SAsg "name" (EStr "Army's Muse"); SAsg "res" (EList []); SAsg "haste_and_auto_time_reductions" (EList [(EFlt 1 100); (EFlt 1 50); (EFlt 1 25);
  (EFlt 3 25)]); SFor ["i"] false (ECall "range" [(EInt 0); (EInt 4)] []) [SApp "res" (ECall "FollowUp" [] [("skill", (ECall "Skill" [] [("name",
  (EVar "name")); ("is_GCD", (EBool false)); ("buff_spec", (ECall "StatusEffectSpec" [] [("haste_time_reduction", (EIdx (EVar
  "haste_and_auto_time_reductions") (EVar "i"))); ("auto_attack_delay_reduction", (EIdx (EVar "haste_and_auto_time_reductions") (EVar "i")));
  ("duration", (EBin BMul (EInt 10) (EInt 1000)))]))])); ("delay_after_parent_application", (EInt 0))])]; SRet (EVar "res")].

(** simulator/game_data/class_skills/ranged/brd.py lines 302-311: raging_strikes *)
Definition brd_m10 : pmethod := mkMethod "raging_strikes" []
  [SAsg "name" (EStr "Raging Strikes"); SRet (ECall "Skill" [] [("name", (EVar "name")); ("is_GCD", (EBool false)); ("buff_spec", (ECall
  "StatusEffectSpec" [] [("damage_mult", (EFlt 23 20)); ("duration", (ECall "int" [(EBin BMul (EFlt 999 50) (EInt 1000))] []))])); ("timing_spec",
  (ECall "TimingSpec" [] [("base_cast_time", (EInt 0)); ("animation_lock", (EInt 650)); ("application_delay", (EInt 540))]))])].

(** simulator/game_data/class_skills/ranged/brd.py lines 314-323: bloodletter *)
Definition brd_m11 : pmethod := mkMethod "bloodletter" []
  [SAsg "name" (EStr "Bloodletter"); SRet (ECall "Skill" [] [("name", (EVar "name")); ("is_GCD", (EBool false)); ("damage_spec", (ECall "DamageSpec"
  [] [("potency", (EPot (EVar "name")))])); ("timing_spec", (ECall "TimingSpec" [] [("base_cast_time", (EInt 0)); ("animation_lock", (EInt 650));
  ("application_delay", (EInt 1600))]))])].

(** simulator/game_data/class_skills/ranged/brd.py lines 326-404: mages_ballad *)
Definition brd_m12 : pmethod := mkMethod "mages_ballad" []
  [SAsg "name" (EStr "Mage's Ballad"); SAsg "mages_ballad_potency" (EIf (EVer OGe V70) ENone (ECall "DamageSpec" [] [("potency", (EPot (EVar
  "name"))); ("trait_damage_mult_override", (EFlt 1 1))])); SAsg "armys_muse_follow_ups" (EMeth "__get_army_muse_follow_ups" [] []); SRet (ECall
  "Skill" [] [("name", (EVar "name")); ("is_GCD", (EBool false)); ("damage_spec", (EDict [((EConst "SimConsts.DEFAULT_CONDITION"), (EVar
  "mages_ballad_potency")); ((EStr "Buff Only"), ENone)])); ("buff_spec", (EDict [((EConst "SimConsts.DEFAULT_CONDITION"), (ECall "StatusEffectSpec"
  [] [("damage_mult", (EFlt 101 100)); ("duration", (EBin BMul (EInt 45) (EInt 1000))); ("is_party_effect", (EBool true)); ("expires_status_effects",
  (ETup [(EStr "The Wanderer's Minuet"); (EStr "Army's Paeon")]))])); ((EStr "Buff Only"), (ECall "StatusEffectSpec" [] [("damage_mult", (EFlt 101
  100)); ("duration", (EBin BMul (EInt 45) (EInt 1000))); ("is_party_effect", (EBool true)); ("expires_status_effects", (ETup [(EStr
  "The Wanderer's Minuet"); (EStr "Army's Paeon")]))])); ((EStr "From Log, Buff Only"), (ECall "StatusEffectSpec" [] [("damage_mult", (EFlt 101 100));
  ("duration", (EBin BMul (EInt 5) (EInt 1000))); ("max_duration", (EBin BMul (EInt 5) (EInt 1000))); ("is_party_effect", (EBool true));
  ("extends_existing_duration", (EBool true)); ("expires_status_effects", (ETup [(EStr "The Wanderer's Minuet"); (EStr "Army's Paeon")]))])); ((EStr
  "From Log"), (ECall "StatusEffectSpec" [] [("damage_mult", (EFlt 101 100)); ("duration", (EBin BMul (EInt 5) (EInt 1000))); ("max_duration", (EBin
  BMul (EInt 5) (EInt 1000))); ("is_party_effect", (EBool true)); ("extends_existing_duration", (EBool true)); ("expires_status_effects", (ETup [(EStr
  "The Wanderer's Minuet"); (EStr "Army's Paeon")]))]))])); ("timing_spec", (ESelf "instant_timing_spec")); ("job_resource_spec", (EDict [((EConst
  "SimConsts.DEFAULT_CONDITION"), (ETup [(ECall "JobResourceSpec" [] [("name", (EStr "Mage's Coda")); ("change", (EInt 1))])])); ((EStr "Buff Only"),
  (ECall "tuple" [] []))])); ("follow_up_skills", (EDict [((EConst "SimConsts.DEFAULT_CONDITION"), (ECall "tuple" [] [])); ((EStr
  "Army's Muse, 1 Repertoire"), (ETup [(EIdx (EVar "armys_muse_follow_ups") (EInt 0))])); ((EStr "Army's Muse, 2 Repertoire"), (ETup [(EIdx (EVar
  "armys_muse_follow_ups") (EInt 1))])); ((EStr "Army's Muse, 3 Repertoire"), (ETup [(EIdx (EVar "armys_muse_follow_ups") (EInt 2))])); ((EStr
  "Army's Muse, 4 Repertoire"), (ETup [(EIdx (EVar "armys_muse_follow_ups") (EInt 3))])); ((EStr "Buff Only"), (ECall "tuple" [] []))]));
  ("off_class_default_condition", (EStr "Buff Only"))])].

(** simulator/game_data/class_skills/ranged/brd.py lines 407-417: rain_of_death *)
Definition brd_m13 : pmethod := mkMethod "rain_of_death" []
  [SAsg "name" (EStr "Rain of Death"); SRet (ECall "Skill" [] [("name", (EVar "name")); ("is_GCD", (EBool false)); ("damage_spec", (ECall "DamageSpec"
  [] [("potency", (EPot (EVar "name")))])); ("timing_spec", (ECall "TimingSpec" [] [("base_cast_time", (EInt 0)); ("animation_lock", (EInt 650));
  ("application_delay", (EInt 1650))])); ("has_aoe", (EBool true))])].

(** simulator/game_data/class_skills/ranged/brd.py lines 420-433: battle_voice *)
Definition brd_m14 : pmethod := mkMethod "battle_voice" []
  [SAsg "name" (EStr "Battle Voice"); SRet (ECall "Skill" [] [("name", (EVar "name")); ("is_GCD", (EBool false)); ("buff_spec", (ECall
  "StatusEffectSpec" [] [("dh_rate_add", (EFlt 1 5)); ("duration", (EData (EVar "name") (EStr "duration"))); ("is_party_effect", (EBool true))]));
  ("timing_spec", (ECall "TimingSpec" [] [("base_cast_time", (EInt 0)); ("animation_lock", (EInt 650)); ("application_delay", (EInt 620))]))])].

(** simulator/game_data/class_skills/ranged/brd.py lines 436-513: the_wanderers_minuet *)
Definition brd_m15 : pmethod := mkMethod "the_wanderers_minuet" []
  [SAsg "name" (EStr "The Wanderer's Minuet"); SAsg "wanderers_potency" (EIf (EVer OGe V70) ENone (ECall "DamageSpec" [] [("potency", (EPot (EVar
  "name"))); ("trait_damage_mult_override", (EFlt 1 1))])); SAsg "armys_muse_follow_ups" (EMeth "__get_army_muse_follow_ups" [] []); SRet (ECall
  "Skill" [] [("name", (EVar "name")); ("is_GCD", (EBool false)); ("damage_spec", (EDict [((EConst "SimConsts.DEFAULT_CONDITION"), (EVar
  "wanderers_potency")); ((EStr "Buff Only"), ENone)])); ("buff_spec", (EDict [((EConst "SimConsts.DEFAULT_CONDITION"), (ECall "StatusEffectSpec" []
  [("crit_rate_add", (EFlt 1 50)); ("duration", (EBin BMul (EInt 45) (EInt 1000))); ("is_party_effect", (EBool true)); ("expires_status_effects",
  (ETup [(EStr "Army's Paeon"); (EStr "Mage's Ballad")]))])); ((EStr "Buff Only"), (ECall "StatusEffectSpec" [] [("crit_rate_add", (EFlt 1 50));
  ("duration", (EBin BMul (EInt 45) (EInt 1000))); ("is_party_effect", (EBool true)); ("expires_status_effects", (ETup [(EStr "Army's Paeon"); (EStr
  "Mage's Ballad")]))])); ((EStr "From Log, Buff Only"), (ECall "StatusEffectSpec" [] [("crit_rate_add", (EFlt 1 50)); ("duration", (EBin BMul (EInt
  5) (EInt 1000))); ("max_duration", (EBin BMul (EInt 5) (EInt 1000))); ("is_party_effect", (EBool true)); ("extends_existing_duration", (EBool
  true)); ("expires_status_effects", (ETup [(EStr "Army's Paeon"); (EStr "Mage's Ballad")]))])); ((EStr "From Log"), (ECall "StatusEffectSpec" []
  [("crit_rate_add", (EFlt 1 50)); ("duration", (EBin BMul (EInt 5) (EInt 1000))); ("max_duration", (EBin BMul (EInt 5) (EInt 1000)));
  ("is_party_effect", (EBool true)); ("extends_existing_duration", (EBool true)); ("expires_status_effects", (ETup [(EStr "Army's Paeon"); (EStr
  "Mage's Ballad")]))]))])); ("timing_spec", (ESelf "instant_timing_spec")); ("job_resource_spec", (EDict [((EConst "SimConsts.DEFAULT_CONDITION"),
  (ETup [(ECall "JobResourceSpec" [] [("name", (EStr "Wanderer's Coda")); ("change", (EInt 1))])])); ((EStr "Buff Only"), (ECall "tuple" [] []))]));
  ("follow_up_skills", (EDict [((EConst "SimConsts.DEFAULT_CONDITION"), (ECall "tuple" [] [])); ((EStr "Army's Muse, 1 Repertoire"), (ETup [(EIdx
  (EVar "armys_muse_follow_ups") (EInt 0))])); ((EStr "Army's Muse, 2 Repertoire"), (ETup [(EIdx (EVar "armys_muse_follow_ups") (EInt 1))])); ((EStr
  "Army's Muse, 3 Repertoire"), (ETup [(EIdx (EVar "armys_muse_follow_ups") (EInt 2))])); ((EStr "Army's Muse, 4 Repertoire"), (ETup [(EIdx (EVar
  "armys_muse_follow_ups") (EInt 3))])); ((EStr "Buff Only"), (ECall "tuple" [] []))])); ("off_class_default_condition", (EStr "Buff Only"))])].

(** simulator/game_data/class_skills/ranged/brd.py lines 516-541: pitch_perfect *)
Definition brd_m16 : pmethod := mkMethod "pitch_perfect" []
  [SAsg "name" (EStr "Pitch Perfect"); SRet (ECall "Skill" [] [("name", (EVar "name")); ("is_GCD", (EBool false)); ("damage_spec", (EDict [((EConst
  "SimConsts.DEFAULT_CONDITION"), (ECall "DamageSpec" [] [("potency", (EData (EVar "name") (EStr "3 Repertoire")))])); ((EStr "1 Repertoire"), (ECall
  "DamageSpec" [] [("potency", (EData (EVar "name") (EStr "1 Repertoire")))])); ((EStr "2 Repertoire"), (ECall "DamageSpec" [] [("potency", (EData
  (EVar "name") (EStr "2 Repertoire")))])); ((EStr "3 Repertoire"), (ECall "DamageSpec" [] [("potency", (EData (EVar "name") (EStr
  "3 Repertoire")))]))])); ("timing_spec", (ECall "TimingSpec" [] [("base_cast_time", (EInt 0)); ("animation_lock", (EInt 650)); ("application_delay",
  (EInt 800))])); ("job_resource_spec", (ETup [(ECall "JobResourceSpec" [] [("name", (EStr "Repertoire")); ("change", (ENeg (EConst "np.inf")))])]));
  ("has_aoe", (EBool true)); ("aoe_dropoff", (EFlt 1 2))])].

(** simulator/game_data/class_skills/ranged/brd.py lines 544-553: empyreal_arrow *)
Definition brd_m17 : pmethod := mkMethod "empyreal_arrow" []
  [SAsg "name" (EStr "Empyreal Arrow"); SRet (ECall "Skill" [] [("name", (EVar "name")); ("is_GCD", (EBool false)); ("damage_spec", (ECall
  "DamageSpec" [] [("potency", (EPot (EVar "name")))])); ("timing_spec", (ECall "TimingSpec" [] [("base_cast_time", (EInt 0)); ("animation_lock",
  (EInt 650)); ("application_delay", (EInt 1030))]))])].

(** simulator/game_data/class_skills/ranged/brd.py lines 556-628: iron_jaws *)
Definition brd_m18 : pmethod := mkMethod "iron_jaws" []
  [SAsg "name" (EStr "Iron Jaws"); SAsg "stormbite_follow_up" (EMeth "__get_stormbite_follow_up" [] []); SAsg "caustic_bite_follow_up" (EMeth
  "__get_caustic_bite_follow_up" [] []); SIf (EVer OGe V70) [SAsg "iron_jaws_skill" (ECall "Skill" [] [("name", (EVar "name")); ("is_GCD", (EBool
  true)); ("damage_spec", (ECall "DamageSpec" [] [("potency", (EPot (EVar "name")))])); ("timing_spec", (ECall "TimingSpec" [] [("base_cast_time",
  (EInt 0)); ("animation_lock", (EInt 650)); ("application_delay", (EInt 670))])); ("follow_up_skills", (EDict [((EConst
  "SimConsts.DEFAULT_CONDITION"), (ETup [(EVar "stormbite_follow_up"); (EVar "caustic_bite_follow_up")])); ((EStr "Stormbite"), (ETup [(EVar
  "stormbite_follow_up")])); ((EStr "Caustic Bite"), (ETup [(EVar "caustic_bite_follow_up")])); ((EStr "No Dot"), (ECall "tuple" [] []))]))])] [SAsg
  "iron_jaw_barrage2" (ECall "FollowUp" [] [("skill", (ECall "Skill" [] [("name", (EVar "name")); ("damage_spec", (ECall "DamageSpec" [] [("potency",
  (EPot (EVar "name")))]))])); ("delay_after_parent_application", (EInt 120))]); SAsg "iron_jaw_barrage3" (ECall "FollowUp" [] [("skill", (ECall
  "Skill" [] [("name", (EVar "name")); ("damage_spec", (ECall "DamageSpec" [] [("potency", (EPot (EVar "name")))]))]));
  ("delay_after_parent_application", (EInt 240))]); SAsg "iron_jaws_skill" (ECall "Skill" [] [("name", (EVar "name")); ("is_GCD", (EBool true));
  ("damage_spec", (ECall "DamageSpec" [] [("potency", (EPot (EVar "name")))])); ("timing_spec", (ECall "TimingSpec" [] [("base_cast_time", (EInt 0));
  ("animation_lock", (EInt 650)); ("application_delay", (EInt 670))])); ("follow_up_skills", (EDict [((EConst "SimConsts.DEFAULT_CONDITION"), (ETup
  [(EVar "stormbite_follow_up"); (EVar "caustic_bite_follow_up")])); ((EStr "Stormbite"), (ETup [(EVar "stormbite_follow_up")])); ((EStr
  "Caustic Bite"), (ETup [(EVar "caustic_bite_follow_up")])); ((EStr "No Dot"), (ECall "tuple" [] [])); ((EStr "Barrage"), (ETup [(EVar
  "stormbite_follow_up"); (EVar "caustic_bite_follow_up"); (EVar "iron_jaw_barrage2"); (EVar "iron_jaw_barrage3")])); ((EStr "Barrage, Stormbite"),
  (ETup [(EVar "stormbite_follow_up"); (EVar "iron_jaw_barrage2"); (EVar "iron_jaw_barrage3")])); ((EStr "Barrage, Caustic Bite"), (ETup [(EVar
  "caustic_bite_follow_up"); (EVar "iron_jaw_barrage2"); (EVar "iron_jaw_barrage3")])); ((EStr "Barrage, No Dot"), (ETup [(EVar "iron_jaw_barrage2");
  (EVar "iron_jaw_barrage3")]))]))])]; SRet (EVar "iron_jaws_skill")].

(** simulator/game_data/class_skills/ranged/brd.py lines 631-640: sidewinder *)
Definition brd_m19 : pmethod := mkMethod "sidewinder" []
  [SAsg "name" (EStr "Sidewinder"); SRet (ECall "Skill" [] [("name", (EVar "name")); ("is_GCD", (EBool false)); ("damage_spec", (ECall "DamageSpec" []
  [("potency", (EPot (EVar "name")))])); ("timing_spec", (ECall "TimingSpec" [] [("base_cast_time", (EInt 0)); ("animation_lock", (EInt 650));
  ("application_delay", (EInt 530))]))])].

(** simulator/game_data/class_skills/ranged/brd.py lines 643-689: cautic_bite *)
Definition brd_m20 : pmethod := mkMethod "cautic_bite" []
  [SAsg "name" (EStr "Caustic Bite"); SAsg "caustic_bite_follow_up" (EMeth "__get_caustic_bite_follow_up" [] []); SIf (EVer OGe V70) [SAsg
  "caustic_bite_skill" (ECall "Skill" [] [("name", (EVar "name")); ("is_GCD", (EBool false)); ("damage_spec", (ECall "DamageSpec" [] [("potency",
  (EPot (EVar "name")))])); ("timing_spec", (ECall "TimingSpec" [] [("base_cast_time", (EInt 0)); ("animation_lock", (EInt 650));
  ("application_delay", (EInt 1290))])); ("follow_up_skills", (ETup [(EVar "caustic_bite_follow_up")]))])] [SAsg "caustic_bite_barrage2" (ECall
  "FollowUp" [] [("skill", (ECall "Skill" [] [("name", (EVar "name")); ("damage_spec", (ECall "DamageSpec" [] [("potency", (EPot (EVar
  "name")))]))])); ("delay_after_parent_application", (EInt 120))]); SAsg "caustic_bite_barrage3" (ECall "FollowUp" [] [("skill", (ECall "Skill" []
  [("name", (EVar "name")); ("damage_spec", (ECall "DamageSpec" [] [("potency", (EPot (EVar "name")))]))])); ("delay_after_parent_application", (EInt
  240))]); SAsg "caustic_bite_skill" (ECall "Skill" [] [("name", (EVar "name")); ("is_GCD", (EBool false)); ("damage_spec", (ECall "DamageSpec" []
  [("potency", (EPot (EVar "name")))])); ("timing_spec", (ECall "TimingSpec" [] [("base_cast_time", (EInt 0)); ("animation_lock", (EInt 650));
  ("application_delay", (EInt 1290))])); ("follow_up_skills", (EDict [((EConst "SimConsts.DEFAULT_CONDITION"), (ETup [(EVar
  "caustic_bite_follow_up")])); ((EStr "Barrage"), (ETup [(EVar "caustic_bite_follow_up"); (EVar "caustic_bite_barrage2"); (EVar
  "caustic_bite_barrage3")]))]))])]; SRet (EVar "caustic_bite_skill")].

(** simulator/game_data/class_skills/ranged/brd.py lines 692-739: stormbite *)
Definition brd_m21 : pmethod := mkMethod "stormbite" []
  [SAsg "name" (EStr "Stormbite"); SAsg "stormbite_follow_up" (EMeth "__get_stormbite_follow_up" [] []); SIf (EVer OGe V70) [SAsg "stormbite_skill"
  (ECall "Skill" [] [("name", (EVar "name")); ("is_GCD", (EBool false)); ("damage_spec", (ECall "DamageSpec" [] [("potency", (EPot (EVar "name")))]));
  ("timing_spec", (ECall "TimingSpec" [] [("base_cast_time", (EInt 0)); ("animation_lock", (EInt 650)); ("application_delay", (EInt 1290))]));
  ("follow_up_skills", (ETup [(EVar "stormbite_follow_up")]))])] [SAsg "stormbite_barrage2" (ECall "FollowUp" [] [("skill", (ECall "Skill" []
  [("name", (EVar "name")); ("is_GCD", (EBool false)); ("damage_spec", (ECall "DamageSpec" [] [("potency", (EPot (EVar "name")))]))]));
  ("delay_after_parent_application", (EInt 120))]); SAsg "stormbite_barrage3" (ECall "FollowUp" [] [("skill", (ECall "Skill" [] [("name", (EVar
  "name")); ("is_GCD", (EBool false)); ("damage_spec", (ECall "DamageSpec" [] [("potency", (EPot (EVar "name")))]))]));
  ("delay_after_parent_application", (EInt 240))]); SAsg "stormbite_skill" (ECall "Skill" [] [("name", (EVar "name")); ("is_GCD", (EBool false));
  ("damage_spec", (ECall "DamageSpec" [] [("potency", (EPot (EVar "name")))])); ("timing_spec", (ECall "TimingSpec" [] [("base_cast_time", (EInt 0));
  ("animation_lock", (EInt 650)); ("application_delay", (EInt 1290))])); ("follow_up_skills", (EDict [((EConst "SimConsts.DEFAULT_CONDITION"), (ETup
  [(EVar "stormbite_follow_up")])); ((EStr "Barrage"), (ETup [(EVar "stormbite_follow_up"); (EVar "stormbite_barrage2"); (EVar
  "stormbite_barrage3")]))]))])]; SRet (EVar "stormbite_skill")].

(** simulator/game_data/class_skills/ranged/brd.py lines 742-771: refulgent_arrow *)
Definition brd_m22 : pmethod := mkMethod "refulgent_arrow" []
  [SAsg "name" (EStr "Refulgent Arrow"); SAsg "refulgent_arrow_barrage2" (ECall "FollowUp" [] [("skill", (ECall "Skill" [] [("name", (EVar "name"));
  ("is_GCD", (EBool false)); ("damage_spec", (ECall "DamageSpec" [] [("potency", (EPot (EVar "name")))]))])); ("delay_after_parent_application", (EInt
  120))]); SAsg "refulgent_arrow_barrage3" (ECall "FollowUp" [] [("skill", (ECall "Skill" [] [("name", (EVar "name")); ("is_GCD", (EBool false));
  ("damage_spec", (ECall "DamageSpec" [] [("potency", (EPot (EVar "name")))]))])); ("delay_after_parent_application", (EInt 240))]); SRet (ECall
  "Skill" [] [("name", (EVar "name")); ("is_GCD", (EBool true)); ("damage_spec", (ECall "DamageSpec" [] [("potency", (EPot (EVar "name")))]));
  ("timing_spec", (ECall "TimingSpec" [] [("base_cast_time", (EInt 0)); ("animation_lock", (EInt 650)); ("application_delay", (EInt 1470))]));
  ("follow_up_skills", (EDict [((EConst "SimConsts.DEFAULT_CONDITION"), (ECall "tuple" [] [])); ((EStr "Barrage"), (ETup [(EVar
  "refulgent_arrow_barrage2"); (EVar "refulgent_arrow_barrage3")]))]))])].

(** simulator/game_data/class_skills/ranged/brd.py lines 774-791: shadowbite *)
Definition brd_m23 : pmethod := mkMethod "shadowbite" []
  [SAsg "name" (EStr "Shadowbite"); SRet (ECall "Skill" [] [("name", (EVar "name")); ("is_GCD", (EBool true)); ("damage_spec", (EDict [((EConst
  "SimConsts.DEFAULT_CONDITION"), (ECall "DamageSpec" [] [("potency", (EData (EVar "name") (EStr "potency")))])); ((EStr "Barrage"), (ECall
  "DamageSpec" [] [("potency", (EData (EVar "name") (EStr "potency_barrage")))]))])); ("timing_spec", (ECall "TimingSpec" [] [("base_cast_time", (EInt
  0)); ("animation_lock", (EInt 650)); ("application_delay", (EInt 1430))])); ("has_aoe", (EBool true))])].

(** simulator/game_data/class_skills/ranged/brd.py lines 794-834: burst_shot *)
Definition brd_m24 : pmethod := mkMethod "burst_shot" []
  [SAsg "name" (EStr "Burst Shot"); SIf (EVer OGe V70) [SAsg "burst_shot_skill" (ECall "Skill" [] [("name", (EVar "name")); ("is_GCD", (EBool true));
  ("damage_spec", (ECall "DamageSpec" [] [("potency", (EPot (EVar "name")))])); ("timing_spec", (ECall "TimingSpec" [] [("base_cast_time", (EInt 0));
  ("animation_lock", (EInt 650)); ("application_delay", (EInt 1470))]))])] [SAsg "burst_shot_barrage2" (ECall "FollowUp" [] [("skill", (ECall "Skill"
  [] [("name", (EVar "name")); ("is_GCD", (EBool false)); ("damage_spec", (ECall "DamageSpec" [] [("potency", (EPot (EVar "name")))]))]));
  ("delay_after_parent_application", (EInt 120))]); SAsg "burst_shot_barrage3" (ECall "FollowUp" [] [("skill", (ECall "Skill" [] [("name", (EVar
  "name")); ("is_GCD", (EBool false)); ("damage_spec", (ECall "DamageSpec" [] [("potency", (EPot (EVar "name")))]))]));
  ("delay_after_parent_application", (EInt 240))]); SAsg "burst_shot_skill" (ECall "Skill" [] [("name", (EVar "name")); ("is_GCD", (EBool true));
  ("damage_spec", (ECall "DamageSpec" [] [("potency", (EPot (EVar "name")))])); ("timing_spec", (ECall "TimingSpec" [] [("base_cast_time", (EInt 0));
  ("animation_lock", (EInt 650)); ("application_delay", (EInt 1470))])); ("follow_up_skills", (EDict [((EConst "SimConsts.DEFAULT_CONDITION"), (ECall
  "tuple" [] [])); ((EStr "Barrage"), (ETup [(EVar "burst_shot_barrage2"); (EVar "burst_shot_barrage3")]))]))])]; SRet (EVar "burst_shot_skill")].

(** simulator/game_data/class_skills/ranged/brd.py lines 837-903: apex_arrow *)
Definition brd_m25 : pmethod := mkMethod "apex_arrow" []
  [SAsg "name" (EStr "Apex Arrow"); SRet (ECall "Skill" [] [("name", (EVar "name")); ("is_GCD", (EBool true)); ("damage_spec", (EDict [((EConst
  "SimConsts.DEFAULT_CONDITION"), (ECall "DamageSpec" [] [("potency", (EData (EVar "name") (EStr "100 Soul Voice")))])); ((EStr "20 Soul Voice"),
  (ECall "DamageSpec" [] [("potency", (EData (EVar "name") (EStr "20 Soul Voice")))])); ((EStr "25 Soul Voice"), (ECall "DamageSpec" [] [("potency",
  (EData (EVar "name") (EStr "25 Soul Voice")))])); ((EStr "30 Soul Voice"), (ECall "DamageSpec" [] [("potency", (EData (EVar "name") (EStr
  "30 Soul Voice")))])); ((EStr "35 Soul Voice"), (ECall "DamageSpec" [] [("potency", (EData (EVar "name") (EStr "35 Soul Voice")))])); ((EStr
  "40 Soul Voice"), (ECall "DamageSpec" [] [("potency", (EData (EVar "name") (EStr "40 Soul Voice")))])); ((EStr "45 Soul Voice"), (ECall "DamageSpec"
  [] [("potency", (EData (EVar "name") (EStr "45 Soul Voice")))])); ((EStr "50 Soul Voice"), (ECall "DamageSpec" [] [("potency", (EData (EVar "name")
  (EStr "50 Soul Voice")))])); ((EStr "55 Soul Voice"), (ECall "DamageSpec" [] [("potency", (EData (EVar "name") (EStr "55 Soul Voice")))])); ((EStr
  "60 Soul Voice"), (ECall "DamageSpec" [] [("potency", (EData (EVar "name") (EStr "60 Soul Voice")))])); ((EStr "65 Soul Voice"), (ECall "DamageSpec"
  [] [("potency", (EData (EVar "name") (EStr "65 Soul Voice")))])); ((EStr "70 Soul Voice"), (ECall "DamageSpec" [] [("potency", (EData (EVar "name")
  (EStr "70 Soul Voice")))])); ((EStr "75 Soul Voice"), (ECall "DamageSpec" [] [("potency", (EData (EVar "name") (EStr "75 Soul Voice")))])); ((EStr
  "80 Soul Voice"), (ECall "DamageSpec" [] [("potency", (EData (EVar "name") (EStr "80 Soul Voice")))])); ((EStr "85 Soul Voice"), (ECall "DamageSpec"
  [] [("potency", (EData (EVar "name") (EStr "85 Soul Voice")))])); ((EStr "90 Soul Voice"), (ECall "DamageSpec" [] [("potency", (EData (EVar "name")
  (EStr "90 Soul Voice")))])); ((EStr "95 Soul Voice"), (ECall "DamageSpec" [] [("potency", (EData (EVar "name") (EStr "95 Soul Voice")))])); ((EStr
  "100 Soul Voice"), (ECall "DamageSpec" [] [("potency", (EData (EVar "name") (EStr "100 Soul Voice")))]))])); ("timing_spec", (ECall "TimingSpec" []
  [("base_cast_time", (EInt 0)); ("animation_lock", (EInt 650)); ("application_delay", (EInt 1070))])); ("job_resource_spec", (ETup [(ECall
  "JobResourceSpec" [] [("name", (EStr "Soul Voice")); ("change", (ENeg (EConst "np.inf")))])])); ("has_aoe", (EBool true))])].

(** simulator/game_data/class_skills/ranged/brd.py lines 906-936: ladonsbite *)
Definition brd_m26 : pmethod := mkMethod "ladonsbite" []
  [SAsg "name" (EStr "Ladonsbite"); SAsg "ladonsbite_barrage2" (ECall "FollowUp" [] [("skill", (ECall "Skill" [] [("name", (EVar "name")); ("is_GCD",
  (EBool false)); ("damage_spec", (ECall "DamageSpec" [] [("potency", (EPot (EVar "name")))]))])); ("delay_after_parent_application", (EInt 120))]);
  SAsg "ladonsbite_barrage3" (ECall "FollowUp" [] [("skill", (ECall "Skill" [] [("name", (EVar "name")); ("is_GCD", (EBool false)); ("damage_spec",
  (ECall "DamageSpec" [] [("potency", (EPot (EVar "name")))]))])); ("delay_after_parent_application", (EInt 240))]); SRet (ECall "Skill" [] [("name",
  (EVar "name")); ("is_GCD", (EBool true)); ("damage_spec", (ECall "DamageSpec" [] [("potency", (EPot (EVar "name")))])); ("timing_spec", (ECall
  "TimingSpec" [] [("base_cast_time", (EInt 0)); ("animation_lock", (EInt 650)); ("application_delay", (EInt 1110))])); ("follow_up_skills", (EDict
  [((EConst "SimConsts.DEFAULT_CONDITION"), (ECall "tuple" [] [])); ((EStr "Barrage"), (ETup [(EVar "ladonsbite_barrage2"); (EVar
  "ladonsbite_barrage3")]))])); ("has_aoe", (EBool true))])].

(** simulator/game_data/class_skills/ranged/brd.py lines 939-954: blast_arrow *)
Definition brd_m27 : pmethod := mkMethod "blast_arrow" []
  [SAsg "name" (EStr "Blast Arrow"); SRet (ECall "Skill" [] [("name", (EVar "name")); ("is_GCD", (EBool true)); ("damage_spec", (EDict [((EConst
  "SimConsts.DEFAULT_CONDITION"), (ECall "DamageSpec" [] [("potency", (EPot (EVar "name")))]))])); ("timing_spec", (ECall "TimingSpec" []
  [("base_cast_time", (EInt 0)); ("animation_lock", (EInt 650)); ("application_delay", (EInt 1650))])); ("has_aoe", (EBool true)); ("aoe_dropoff",
  (EFlt 3 5))])].

(** simulator/game_data/class_skills/ranged/brd.py lines 957-1104: radiant_finale *)
Definition brd_m28 : pmethod := mkMethod "radiant_finale" []
  [SAsg "name" (EStr "Radiant Finale"); SAsg "encore1" (ECall "FollowUp" [] [("skill", (ECall "Skill" [] [("name", (EStr "1 Encore")); ("is_GCD",
  (EBool false)); ("buff_spec", (ECall "StatusEffectSpec" [] [("add_to_skill_modifier_condition", (EBool true)); ("num_uses", (EInt 1)); ("duration",
  (EBin BMul (EInt 30) (EInt 1000))); ("skill_allowlist", (ETup [(EStr "Radiant Finale"); (EStr "Radiant Encore")]))]))]));
  ("delay_after_parent_application", (EInt 0))]); SAsg "encore2" (ECall "FollowUp" [] [("skill", (ECall "Skill" [] [("name", (EStr "2 Encore"));
  ("is_GCD", (EBool false)); ("buff_spec", (ECall "StatusEffectSpec" [] [("add_to_skill_modifier_condition", (EBool true)); ("num_uses", (EInt 1));
  ("duration", (EBin BMul (EInt 30) (EInt 1000))); ("skill_allowlist", (ETup [(EStr "Radiant Finale"); (EStr "Radiant Encore")]))]))]));
  ("delay_after_parent_application", (EInt 0))]); SAsg "encore3" (ECall "FollowUp" [] [("skill", (ECall "Skill" [] [("name", (EStr "3 Encore"));
  ("is_GCD", (EBool false)); ("buff_spec", (ECall "StatusEffectSpec" [] [("add_to_skill_modifier_condition", (EBool true)); ("num_uses", (EInt 1));
  ("duration", (EBin BMul (EInt 30) (EInt 1000))); ("skill_allowlist", (ETup [(EStr "Radiant Finale"); (EStr "Radiant Encore")]))]))]));
  ("delay_after_parent_application", (EInt 0))]); SRet (ECall "Skill" [] [("name", (EVar "name")); ("is_GCD", (EBool false)); ("buff_spec", (EDict
  [((EConst "SimConsts.DEFAULT_CONDITION"), (ECall "StatusEffectSpec" [] [("damage_mult", (EFlt 53 50)); ("duration", (EData (EVar "name") (EStr
  "duration"))); ("is_party_effect", (EBool true))])); ((EStr "1 Mage's Coda"), (ECall "StatusEffectSpec" [] [("damage_mult", (EFlt 51 50));
  ("duration", (EData (EVar "name") (EStr "duration"))); ("is_party_effect", (EBool true))])); ((EStr "1 Army's Coda"), (ECall "StatusEffectSpec" []
  [("damage_mult", (EFlt 51 50)); ("duration", (EData (EVar "name") (EStr "duration"))); ("is_party_effect", (EBool true))])); ((EStr
  "1 Wanderer's Coda"), (ECall "StatusEffectSpec" [] [("damage_mult", (EFlt 51 50)); ("duration", (EData (EVar "name") (EStr "duration")));
  ("is_party_effect", (EBool true))])); ((EStr "1 Mage's Coda, 1 Army's Coda"), (ECall "StatusEffectSpec" [] [("damage_mult", (EFlt 26 25));
  ("duration", (EData (EVar "name") (EStr "duration"))); ("is_party_effect", (EBool true))])); ((EStr "1 Mage's Coda, 1 Wanderer's Coda"), (ECall
  "StatusEffectSpec" [] [("damage_mult", (EFlt 26 25)); ("duration", (EData (EVar "name") (EStr "duration"))); ("is_party_effect", (EBool true))]));
  ((EStr "1 Army's Coda, 1 Wanderer's Coda"), (ECall "StatusEffectSpec" [] [("damage_mult", (EFlt 26 25)); ("duration", (EData (EVar "name") (EStr
  "duration"))); ("is_party_effect", (EBool true))])); ((EStr "1 Mage's Coda, 1 Army's Coda, 1 Wanderer's Coda"), (ECall "StatusEffectSpec" []
  [("damage_mult", (EFlt 53 50)); ("duration", (EData (EVar "name") (EStr "duration"))); ("is_party_effect", (EBool true))])); ((EStr "1 Coda"),
  (ECall "StatusEffectSpec" [] [("damage_mult", (EFlt 51 50)); ("duration", (EData (EVar "name") (EStr "duration"))); ("is_party_effect", (EBool
  true))])); ((EStr "2 Coda"), (ECall "StatusEffectSpec" [] [("damage_mult", (EFlt 26 25)); ("duration", (EData (EVar "name") (EStr "duration")));
  ("is_party_effect", (EBool true))])); ((EStr "3 Coda"), (ECall "StatusEffectSpec" [] [("damage_mult", (EFlt 53 50)); ("duration", (EData (EVar
  "name") (EStr "duration"))); ("is_party_effect", (EBool true))]))])); ("job_resource_spec", (EDict [((EConst "SimConsts.DEFAULT_CONDITION"), (ETup
  [(ECall "JobResourceSpec" [] [("name", (EStr "Mage's Coda")); ("change", (ENeg (EInt 1)))]); (ECall "JobResourceSpec" [] [("name", (EStr
  "Army's Coda")); ("change", (ENeg (EInt 1)))]); (ECall "JobResourceSpec" [] [("name", (EStr "Wanderer's Coda")); ("change", (ENeg (EInt 1)))])]));
  ((EStr "1 Coda"), (ECall "tuple" [] [])); ((EStr "2 Coda"), (ECall "tuple" [] [])); ((EStr "3 Coda"), (ECall "tuple" [] [])); ((EStr
  "1 Coda, Buff Only"), (ECall "tuple" [] [])); ((EStr "2 Coda, Buff Only"), (ECall "tuple" [] [])); ((EStr "3 Coda, Buff Only"), (ECall "tuple" []
  [])); ((EStr "Buff Only"), (ECall "tuple" [] []))])); ("timing_spec", (ECall "TimingSpec" [] [("base_cast_time", (EInt 0)); ("animation_lock", (EInt
  650)); ("application_delay", (EInt 625))])); ("follow_up_skills", (EIf (ELev OGe K100) (EDict [((EConst "SimConsts.DEFAULT_CONDITION"), (ETup [(EVar
  "encore2")])); ((EStr "1 Mage's Coda"), (ETup [(EVar "encore1")])); ((EStr "1 Army's Coda"), (ETup [(EVar "encore1")])); ((EStr
  "1 Wanderer's Coda"), (ETup [(EVar "encore1")])); ((EStr "1 Mage's Coda, 1 Army's Coda"), (ETup [(EVar "encore2")])); ((EStr
  "1 Mage's Coda, 1 Wanderer's Coda"), (ETup [(EVar "encore2")])); ((EStr "1 Army's Coda, 1 Wanderer's Coda"), (ETup [(EVar "encore2")])); ((EStr
  "1 Mage's Coda, 1 Army's Coda, 1 Wanderer's Coda"), (ETup [(EVar "encore3")])); ((EStr "1 Coda"), (ECall "tuple" [] [])); ((EStr "2 Coda"), (ECall
  "tuple" [] [])); ((EStr "3 Coda"), (ECall "tuple" [] []))]) (ECall "tuple" [] [])))])].

(** simulator/game_data/class_skills/ranged/brd.py lines 1107-1134: barrage *)
Definition brd_m29 : pmethod := mkMethod "barrage" []
  [SAsg "name" (EStr "Barrage"); SRet (ECall "Skill" [] [("name", (EVar "name")); ("is_GCD", (EBool false)); ("timing_spec", (ESelf
  "instant_timing_spec")); ("buff_spec", (ECall "StatusEffectSpec" [] [("add_to_skill_modifier_condition", (EBool true)); ("num_uses", (EInt 1));
  ("duration", (EBin BMul (EInt 10) (EInt 1000))); ("skill_allowlist", (EIf (EVer OGe V70) (ETup [(EStr "Refulgent Arrow"); (EStr "Shadowbite")])
  (ETup [(EStr "Iron Jaws"); (EStr "Caustic Bite"); (EStr "Stormbite"); (EStr "Refulgent Arrow"); (EStr "Shadowbite"); (EStr "Burst Shot"); (EStr
  "Ladonsbite")])))]))])].

(** simulator/game_data/class_skills/ranged/brd.py lines 1137-1148: heartbreak_shot *)
Definition brd_m30 : pmethod := mkMethod "heartbreak_shot" []
  [SAsg "name" (EStr "Heartbreak Shot"); SIf (ELev OLt K92) [SRet ENone] []; SRet (ECall "Skill" [] [("name", (EVar "name")); ("is_GCD", (EBool
  false)); ("damage_spec", (ECall "DamageSpec" [] [("potency", (EPot (EVar "name")))])); ("timing_spec", (ECall "TimingSpec" [] [("base_cast_time",
  (EInt 0)); ("animation_lock", (EInt 650)); ("application_delay", (EInt 1650))]))])].

(** simulator/game_data/class_skills/ranged/brd.py lines 1151-1168: resonant_arrow *)
Definition brd_m31 : pmethod := mkMethod "resonant_arrow" []
  [SAsg "name" (EStr "Resonant Arrow"); SIf (ELev OLt K96) [SRet ENone] []; SRet (ECall "Skill" [] [("name", (EVar "name")); ("is_GCD", (EBool true));
  ("damage_spec", (EDict [((EConst "SimConsts.DEFAULT_CONDITION"), (ECall "DamageSpec" [] [("potency", (EPot (EVar "name")))]))])); ("timing_spec",
  (ECall "TimingSpec" [] [("base_cast_time", (EInt 0)); ("animation_lock", (EInt 650)); ("application_delay", (EInt 1160))])); ("has_aoe", (EBool
  true)); ("aoe_dropoff", (EFlt 1 2))])].

(** simulator/game_data/class_skills/ranged/brd.py lines 1171-1197: radiant_encore *)
Definition brd_m32 : pmethod := mkMethod "radiant_encore" []
  [SAsg "name" (EStr "Radiant Encore"); SIf (ELev OLt K100) [SRet ENone] []; SRet (ECall "Skill" [] [("name", (EVar "name")); ("is_GCD", (EBool
  true)); ("damage_spec", (EDict [((EConst "SimConsts.DEFAULT_CONDITION"), (ECall "DamageSpec" [] [("potency", (EData (EVar "name") (EStr
  "3 Encore")))])); ((EStr "3 Encore"), (ECall "DamageSpec" [] [("potency", (EData (EVar "name") (EStr "3 Encore")))])); ((EStr "2 Encore"), (ECall
  "DamageSpec" [] [("potency", (EData (EVar "name") (EStr "2 Encore")))])); ((EStr "1 Encore"), (ECall "DamageSpec" [] [("potency", (EData (EVar
  "name") (EStr "1 Encore")))]))])); ("timing_spec", (ECall "TimingSpec" [] [("base_cast_time", (EInt 0)); ("animation_lock", (EInt 650));
  ("application_delay", (EInt 1960))])); ("has_aoe", (EBool true)); ("aoe_dropoff", (EFlt 1 2))])].

(** simulator/game_data/class_skills/ranged/brd.py lines 1200-1233: add_soul_voice *)
Definition brd_m33 : pmethod := mkMethod "add_soul_voice" []
  [SAsg "name" (EStr "Add Soul Voice"); SRet (ECall "Skill" [] [("name", (EVar "name")); ("is_GCD", (EBool false)); ("timing_spec", (ECall
  "TimingSpec" [] [("base_cast_time", (EInt 0)); ("animation_lock", (EInt 0)); ("application_delay", (EInt 0))])); ("job_resource_spec", (EDict
  [((EConst "SimConsts.DEFAULT_CONDITION"), (ETup [(ECall "JobResourceSpec" [] [("name", (EStr "Soul Voice")); ("change", (EInt 5))])])); ((EStr "5"),
  (ETup [(ECall "JobResourceSpec" [] [("name", (EStr "Soul Voice")); ("change", (EInt 5))])])); ((EStr "10"), (ETup [(ECall "JobResourceSpec" []
  [("name", (EStr "Soul Voice")); ("change", (EInt 10))])])); ((EStr "15"), (ETup [(ECall "JobResourceSpec" [] [("name", (EStr "Soul Voice"));
  ("change", (EInt 15))])])); ((EStr "20"), (ETup [(ECall "JobResourceSpec" [] [("name", (EStr "Soul Voice")); ("change", (EInt 20))])])); ((EStr
  "25"), (ETup [(ECall "JobResourceSpec" [] [("name", (EStr "Soul Voice")); ("change", (EInt 25))])])); ((EStr "30"), (ETup [(ECall "JobResourceSpec"
  [] [("name", (EStr "Soul Voice")); ("change", (EInt 30))])])); ((EStr "35"), (ETup [(ECall "JobResourceSpec" [] [("name", (EStr "Soul Voice"));
  ("change", (EInt 35))])])); ((EStr "40"), (ETup [(ECall "JobResourceSpec" [] [("name", (EStr "Soul Voice")); ("change", (EInt 40))])])); ((EStr
  "45"), (ETup [(ECall "JobResourceSpec" [] [("name", (EStr "Soul Voice")); ("change", (EInt 45))])])); ((EStr "50"), (ETup [(ECall "JobResourceSpec"
  [] [("name", (EStr "Soul Voice")); ("change", (EInt 50))])])); ((EStr "55"), (ETup [(ECall "JobResourceSpec" [] [("name", (EStr "Soul Voice"));
  ("change", (EInt 55))])])); ((EStr "60"), (ETup [(ECall "JobResourceSpec" [] [("name", (EStr "Soul Voice")); ("change", (EInt 60))])])); ((EStr
  "65"), (ETup [(ECall "JobResourceSpec" [] [("name", (EStr "Soul Voice")); ("change", (EInt 65))])])); ((EStr "70"), (ETup [(ECall "JobResourceSpec"
  [] [("name", (EStr "Soul Voice")); ("change", (EInt 70))])])); ((EStr "75"), (ETup [(ECall "JobResourceSpec" [] [("name", (EStr "Soul Voice"));
  ("change", (EInt 75))])])); ((EStr "80"), (ETup [(ECall "JobResourceSpec" [] [("name", (EStr "Soul Voice")); ("change", (EInt 80))])])); ((EStr
  "85"), (ETup [(ECall "JobResourceSpec" [] [("name", (EStr "Soul Voice")); ("change", (EInt 85))])])); ((EStr "90"), (ETup [(ECall "JobResourceSpec"
  [] [("name", (EStr "Soul Voice")); ("change", (EInt 90))])])); ((EStr "95"), (ETup [(ECall "JobResourceSpec" [] [("name", (EStr "Soul Voice"));
  ("change", (EInt 95))])])); ((EStr "100"), (ETup [(ECall "JobResourceSpec" [] [("name", (EStr "Soul Voice")); ("change", (EInt 100))])]))]))])].

(** simulator/game_data/class_skills/ranged/brd.py lines 1236-1252: add_repertoire *)
Definition brd_m34 : pmethod := mkMethod "add_repertoire" []
  [SAsg "name" (EStr "Add Repertoire"); SRet (ECall "Skill" [] [("name", (EVar "name")); ("is_GCD", (EBool false)); ("timing_spec", (ECall
  "TimingSpec" [] [("base_cast_time", (EInt 0)); ("animation_lock", (EInt 0)); ("application_delay", (EInt 0))])); ("job_resource_spec", (EDict
  [((EConst "SimConsts.DEFAULT_CONDITION"), (ETup [(ECall "JobResourceSpec" [] [("name", (EStr "Repertoire")); ("change", (EInt 1))])])); ((EStr "1"),
  (ETup [(ECall "JobResourceSpec" [] [("name", (EStr "Repertoire")); ("change", (EInt 1))])])); ((EStr "2"), (ETup [(ECall "JobResourceSpec" []
  [("name", (EStr "Repertoire")); ("change", (EInt 2))])])); ((EStr "3"), (ETup [(ECall "JobResourceSpec" [] [("name", (EStr "Repertoire"));
  ("change", (EInt 3))])]))]))])].

(** simulator/game_data/class_skills/ranged/brd.py lines 20-22: __init__ after super().__init__ *)
Definition brd_init : list stmt :=
  [SAttr "_job_class" (EStr "BRD")].

(** simulator/game_data/class_skills/ranged/brd.py lines 19-1252: class BrdSkills; the decorated methods in the order of [dir] *)
Definition brd_class : pclass := mkClass [] brd_init
  [brd_m0; brd_m1; brd_m2; brd_m3; brd_m4; brd_m5; brd_m6; brd_m7; brd_m8; brd_m9; brd_m10; brd_m11; brd_m12; brd_m13; brd_m14; brd_m15; brd_m16;
  brd_m17; brd_m18; brd_m19; brd_m20; brd_m21; brd_m22; brd_m23; brd_m24; brd_m25; brd_m26; brd_m27; brd_m28; brd_m29; brd_m30; brd_m31; brd_m32;
  brd_m33; brd_m34]
  ["add_repertoire"; "add_soul_voice"; "apex_arrow"; "armys_paeon"; "auto"; "barrage"; "battle_voice"; "blast_arrow"; "bloodletter"; "burst_shot";
  "cautic_bite"; "empyreal_arrow"; "heartbreak_shot"; "iron_jaws"; "ladonsbite"; "mages_ballad"; "pitch_perfect"; "radiant_encore"; "radiant_finale";
  "raging_strikes"; "rain_of_death"; "refulgent_arrow"; "resonant_arrow"; "shadowbite"; "sidewinder"; "stormbite"; "the_wanderers_minuet"]
  ["armys_coda"; "mages_coda"; "repertoire"; "soul_voice"; "wanderers_coda"]
  brd_data.
