(** * DRG: the shipped skill definitions.

    Generated by tools/gen_game_data.py from
    simulator/game_data/class_skills/melee/drg.py and simulator/game_data/class_skills/melee/drg_data.py. *)

From Coq Require Import ZArith List String.
From Verif Require Import Py.
Import ListNotations.
Open Scope string_scope.
Open Scope Z_scope.

(** simulator/game_data/class_skills/melee/drg_data.py lines 8-150, in dict-literal order *)
Definition drg_data : data_table := [
  ("True Thrust", [(90, [("potency", [(V655, (EInt 230))])]); (100, [("potency", [(V70, (EInt 230))])])]);
  ("Vorpal Thrust", [(90, [("potency", [(V655, (EInt 280))]); ("potency_no_combo", [(V655, (EInt 130))])])]);
  ("Piercing Talon", [(90, [("potency", [(V655, (EInt 150)); (V71, (EInt 200))]); ("enhanced potency", [(V71, (EInt 350))])]); (100, [("potency",
  [(V70, (EInt 150)); (V71, (EInt 200))]); ("enhanced potency", [(V71, (EInt 350))])])]);
  ("Disembowel", [(90, [("potency", [(V655, (EInt 250))]); ("potency_no_combo", [(V655, (EInt 140))])])]);
  ("Lance Charge", [(90, [("damage_mult", [(V655, (EFlt 11 10))]); ("duration", [(V655, (EBin BMul (EInt 20) (EInt 1000)))])]); (100, [("damage_mult",
  [(V70, (EFlt 11 10))]); ("duration", [(V70, (EBin BMul (EInt 20) (EInt 1000)))])])]);
  ("Doom Spike", [(90, [("potency", [(V655, (EInt 110))])]); (100, [("potency", [(V70, (EInt 110))])])]);
  ("Spineshatter Dive", [(90, [("potency", [(V655, (EInt 250))])])]);
  ("Dragonfire Dive", [(90, [("potency", [(V655, (EInt 300)); (V70, (EInt 500))])]); (100, [("potency", [(V70, (EInt 500))])])]);
  ("Battle Litany", [(90, [("crit_rate_add", [(V655, (EFlt 1 10))]); ("duration", [(V655, (EBin BMul (EInt 15) (EInt 1000)))])]); (100,
  [("crit_rate_add", [(V70, (EFlt 1 10))]); ("duration", [(V70, (EBin BMul (EInt 20) (EInt 1000)))])])]);
  ("Fang and Claw", [(90, [("potency", [(V655, (EInt 300)); (V70, (EInt 300))]); ("potency_no_pos", [(V655, (EInt 260)); (V70, (EInt 260))]);
  ("potency_no_combo", [(V70, (EInt 140))]); ("potency_no_pos_no_combo", [(V70, (EInt 100))]); ("potency_wheeling", [(V655, (EInt 400))]);
  ("potency_wheeling_no_pos", [(V655, (EInt 360))])]); (100, [("potency", [(V70, (EInt 340))]); ("potency_no_pos", [(V70, (EInt 300))]);
  ("potency_no_combo", [(V70, (EInt 180))]); ("potency_no_pos_no_combo", [(V70, (EInt 140))])])]);
  ("Wheeling Thrust", [(90, [("potency", [(V655, (EInt 300)); (V70, (EInt 300))]); ("potency_no_pos", [(V655, (EInt 260)); (V70, (EInt 260))]);
  ("potency_no_combo", [(V70, (EInt 140))]); ("potency_no_pos_no_combo", [(V70, (EInt 100))]); ("potency_fc", [(V655, (EInt 400))]);
  ("potency_fc_no_pos", [(V655, (EInt 360))])]); (100, [("potency", [(V70, (EInt 340))]); ("potency_no_pos", [(V70, (EInt 300))]);
  ("potency_no_combo", [(V70, (EInt 180))]); ("potency_no_pos_no_combo", [(V70, (EInt 140))])])]);
  ("Geirskogul", [(90, [("potency", [(V655, (EInt 260)); (V70, (EInt 280))]); ("aoe_dropoff", [(V655, (EFlt 3 10)); (V70, (EFlt 1 2))])]); (100,
  [("potency", [(V70, (EInt 280))]); ("aoe_dropoff", [(V70, (EFlt 1 2))])])]);
  ("Sonic Thrust", [(90, [("potency", [(V655, (EInt 120))]); ("potency_no_combo", [(V655, (EInt 100))])]); (100, [("potency", [(V70, (EInt 120))]);
  ("potency_no_combo", [(V70, (EInt 100))])])]);
  ("Mirage Dive", [(90, [("potency", [(V655, (EInt 200)); (V71, (EInt 380))])]); (100, [("potency", [(V70, (EInt 200)); (V71, (EInt 380))])])]);
  ("Nastrond", [(90, [("potency", [(V655, (EInt 360)); (V71, (EInt 720))])]); (100, [("potency", [(V70, (EInt 360)); (V71, (EInt 720))])])]);
  ("Coerthan Torment", [(90, [("potency", [(V655, (EInt 150))]); ("potency_no_combo", [(V655, (EInt 100))])]); (100, [("potency", [(V70, (EInt
  150))]); ("potency_no_combo", [(V70, (EInt 100))])])]);
  ("High Jump", [(90, [("potency", [(V655, (EInt 400))])]); (100, [("potency", [(V70, (EInt 400))])])]);
  ("Raiden Thrust", [(90, [("potency", [(V655, (EInt 280))])]); (100, [("potency", [(V70, (EInt 320))])])]);
  ("Stardiver", [(90, [("potency", [(V655, (EInt 620)); (V705, (EInt 620)); (V71, (EInt 720))])]); (100, [("potency", [(V70, (EInt 620)); (V705, (EInt
  720)); (V71, (EInt 820))])])]);
  ("Draconian Fury", [(90, [("potency", [(V655, (EInt 130))])]); (100, [("potency", [(V70, (EInt 130))])])]);
  ("Heavens' Thrust", [(90, [("potency", [(V655, (EInt 480)); (V70, (EInt 400))]); ("potency_no_combo", [(V655, (EInt 100))]); ("combo_action",
  [(V655, (ETup [(EStr "Vorpal Thrust")]))])]); (100, [("potency", [(V70, (EInt 440))]); ("potency_no_combo", [(V70, (EInt 140))]); ("combo_action",
  [(V70, (ETup [(EStr "Lance Barrage")]))])])]);
  ("Chaotic Spring (dot)", [(90, [("potency", [(V655, (EInt 45))]); ("duration", [(V655, (EBin BMul (EInt 24) (EInt 1000)))])]); (100, [("potency",
  [(V70, (EInt 45))]); ("duration", [(V70, (EBin BMul (EInt 24) (EInt 1000)))])])]);
  ("Chaotic Spring", [(90, [("potency", [(V655, (EInt 300))]); ("potency_no_combo", [(V655, (EInt 140))]); ("potency_no_pos", [(V655, (EInt 260))]);
  ("potency_no_pos_no_combo", [(V655, (EInt 100))]); ("combo_action", [(V655, (ETup [(EStr "Disembowel")]))])]); (100, [("potency", [(V70, (EInt
  340))]); ("potency_no_combo", [(V70, (EInt 180))]); ("potency_no_pos", [(V70, (EInt 300))]); ("potency_no_pos_no_combo", [(V70, (EInt 140))]);
  ("combo_action", [(V70, (ETup [(EStr "Spiral Blow")]))])])]);
  ("Wyrmwind Thrust", [(90, [("potency", [(V655, (EInt 420))])]); (100, [("potency", [(V70, (EInt 440))])])]);
  ("Rise of the Dragon", [(100, [("potency", [(V70, (EInt 550))])])]);
  ("Lance Barrage", [(100, [("potency", [(V70, (EInt 340))]); ("potency_no_combo", [(V70, (EInt 130))])])]);
  ("Spiral Blow", [(100, [("potency", [(V70, (EInt 340))]); ("potency_no_combo", [(V70, (EInt 140))])])]);
  ("Starcross", [(100, [("potency", [(V70, (EInt 700)); (V705, (EInt 900)); (V71, (EInt 1000))])])]);
  ("Drakesbane", [(90, [("potency", [(V70, (EInt 400))])]); (100, [("potency", [(V70, (EInt 440))])])])].

(** simulator/game_data/class_skills/melee/drg.py lines 41-50: __get_power_surge_follow_up *)
Definition drg_m0 : pmethod := mkMethod "__get_power_surge_follow_up" []
  [SAsg "name" (EStr "Power Surge"); SRet (ECall "FollowUp" [] [("skill", (ECall "Skill" [] [("name", (EVar "name")); ("is_GCD", (EBool false));
  ("buff_spec", (ECall "StatusEffectSpec" [] [("damage_mult", (EFlt 11 10)); ("duration", (ECall "int" [(EBin BMul (EFlt 158 5) (EInt 1000))]
  []))]))])); ("delay_after_parent_application", (EInt 0))])].

(** simulator/game_data/class_skills/melee/drg.py lines 53-62: auto *)
Definition drg_m1 : pmethod := mkMethod "auto" []
  [SAsg "name" (EStr "Auto"); SRet (ECall "Skill" [] [("name", (EVar "name")); ("is_GCD", (EBool false)); ("timing_spec", (ESelf "auto_timing_spec"));
  ("damage_spec", (ECall "DamageSpec" [] [("potency", (EInt 90)); ("damage_class", (EConst "DamageClass.AUTO")); ("trait_damage_mult_override", (EInt
  1))]))])].

(** simulator/game_data/class_skills/melee/drg.py lines 65-75: true_thrust *)
Definition drg_m2 : pmethod := mkMethod "true_thrust" []
  [SAsg "name" (EStr "True Thrust"); SRet (ECall "Skill" [] [("name", (EVar "name")); ("is_GCD", (EBool true)); ("combo_spec", (ETup [(ECall
  "ComboSpec" [] [])])); ("damage_spec", (ECall "DamageSpec" [] [("potency", (EPot (EVar "name")))])); ("timing_spec", (ECall "TimingSpec" []
  [("base_cast_time", (EInt 0)); ("animation_lock", (EInt 600)); ("application_delay", (EInt 760))]))])].

(** simulator/game_data/class_skills/melee/drg.py lines 78-97: vorpal_thrust *)
Definition drg_m3 : pmethod := mkMethod "vorpal_thrust" []
  [SIf (ELev OGe K96) [SRet ENone] []; SAsg "name" (EStr "Vorpal Thrust"); SRet (ECall "Skill" [] [("name", (EVar "name")); ("is_GCD", (EBool true));
  ("combo_spec", (ETup [(ECall "ComboSpec" [] [("combo_actions", (ETup [(EStr "True Thrust"); (EStr "Raiden Thrust")]))])])); ("damage_spec", (EDict
  [((EConst "SimConsts.DEFAULT_CONDITION"), (ECall "DamageSpec" [] [("potency", (EPot (EVar "name")))])); ((EStr "No Combo"), (ECall "DamageSpec" []
  [("potency", (EPotNC (EVar "name")))]))])); ("timing_spec", (ECall "TimingSpec" [] [("base_cast_time", (EInt 0)); ("animation_lock", (EInt 600));
  ("application_delay", (EInt 1020))]))])].

(** simulator/game_data/class_skills/melee/drg.py lines 100-122: piercing_talon *)
Definition drg_m4 : pmethod := mkMethod "piercing_talon" []
  [SAsg "name" (EStr "Piercing Talon"); SRet (ECall "Skill" [] [("name", (EVar "name")); ("is_GCD", (EBool true)); ("damage_spec", (EIf (EVer OGe V71)
  (EDict [((EConst "SimConsts.DEFAULT_CONDITION"), (ECall "DamageSpec" [] [("potency", (EPot (EVar "name")))])); ((EStr "Enhanced Piercing Talon"),
  (ECall "DamageSpec" [] [("potency", (EData (EVar "name") (EStr "enhanced potency")))]))]) (ECall "DamageSpec" [] [("potency", (EPot (EVar
  "name")))]))); ("timing_spec", (ECall "TimingSpec" [] [("base_cast_time", (EInt 0)); ("animation_lock", (EInt 600)); ("application_delay", (EInt
  850))]))])].

(** simulator/game_data/class_skills/melee/drg.py lines 125-159: disembowel *)
Definition drg_m5 : pmethod := mkMethod "disembowel" []
  [SIf (ELev OGe K96) [SRet ENone] []; SAsg "name" (EStr "Disembowel"); SAsg "disembowel_damage_follow_up" (ECall "FollowUp" [] [("skill", (ECall
  "Skill" [] [("name", (EVar "name")); ("damage_spec", (ECall "DamageSpec" [] [("potency", (EPot (EVar "name")))]))]));
  ("delay_after_parent_application", (EInt 1650))]); SAsg "disembowel_no_combo_damage_follow_up" (ECall "FollowUp" [] [("skill", (ECall "Skill" []
  [("name", (EVar "name")); ("damage_spec", (ECall "DamageSpec" [] [("potency", (EPotNC (EVar "name")))]))])); ("delay_after_parent_application",
  (EInt 1650))]); SRet (ECall "Skill" [] [("name", (EVar "name")); ("is_GCD", (EBool true)); ("combo_spec", (ETup [(ECall "ComboSpec" []
  [("combo_actions", (ETup [(EStr "True Thrust"); (EStr "Raiden Thrust")]))])])); ("timing_spec", (ECall "TimingSpec" [] [("base_cast_time", (EInt
  0)); ("animation_lock", (EInt 600)); ("application_delay", (EInt 0))])); ("follow_up_skills", (EDict [((EConst "SimConsts.DEFAULT_CONDITION"), (ETup
  [(EVar "disembowel_damage_follow_up"); (EMeth "__get_power_surge_follow_up" [] [])])); ((EStr "No Combo"), (ETup [(EVar
  "disembowel_no_combo_damage_follow_up")]))]))])].

(** simulator/game_data/class_skills/melee/drg.py lines 162-174: lance_charge *)
Definition drg_m6 : pmethod := mkMethod "lance_charge" []
  [SAsg "name" (EStr "Lance Charge"); SRet (ECall "Skill" [] [("name", (EVar "name")); ("is_GCD", (EBool false)); ("timing_spec", (ECall "TimingSpec"
  [] [("base_cast_time", (EInt 0)); ("animation_lock", (EInt 600)); ("application_delay", (EInt 660))])); ("buff_spec", (ECall "StatusEffectSpec" []
  [("damage_mult", (EData (EVar "name") (EStr "damage_mult"))); ("duration", (EData (EVar "name") (EStr "duration")))]))])].

(** simulator/game_data/class_skills/melee/drg.py lines 177-188: doom_spike *)
Definition drg_m7 : pmethod := mkMethod "doom_spike" []
  [SAsg "name" (EStr "Doom Spike"); SRet (ECall "Skill" [] [("name", (EVar "name")); ("is_GCD", (EBool true)); ("combo_spec", (ETup [(ECall
  "ComboSpec" [] [])])); ("damage_spec", (ECall "DamageSpec" [] [("potency", (EPot (EVar "name")))])); ("timing_spec", (ECall "TimingSpec" []
  [("base_cast_time", (EInt 0)); ("animation_lock", (EInt 600)); ("application_delay", (EInt 1290))])); ("has_aoe", (EBool true))])].

(** simulator/game_data/class_skills/melee/drg.py lines 191-202: spineshatter_dive *)
Definition drg_m8 : pmethod := mkMethod "spineshatter_dive" []
  [SIf (EVer OGe V70) [SRet ENone] []; SAsg "name" (EStr "Spineshatter Dive"); SRet (ECall "Skill" [] [("name", (EVar "name")); ("is_GCD", (EBool
  false)); ("damage_spec", (ECall "DamageSpec" [] [("potency", (EPot (EVar "name")))])); ("timing_spec", (ECall "TimingSpec" [] [("base_cast_time",
  (EInt 0)); ("animation_lock", (EInt 800)); ("application_delay", (EInt 800))]))])].

(** simulator/game_data/class_skills/melee/drg.py lines 205-216: dragonfire_dive *)
Definition drg_m9 : pmethod := mkMethod "dragonfire_dive" []
  [SAsg "name" (EStr "Dragonfire Dive"); SRet (ECall "Skill" [] [("name", (EVar "name")); ("is_GCD", (EBool false)); ("damage_spec", (ECall
  "DamageSpec" [] [("potency", (EPot (EVar "name")))])); ("timing_spec", (ECall "TimingSpec" [] [("base_cast_time", (EInt 0)); ("animation_lock",
  (EInt 800)); ("application_delay", (EInt 800))])); ("has_aoe", (EBool true)); ("aoe_dropoff", (EFlt 1 2))])].

(** simulator/game_data/class_skills/melee/drg.py lines 219-232: battle_litany *)
Definition drg_m10 : pmethod := mkMethod "battle_litany" []
  [SAsg "name" (EStr "Battle Litany"); SRet (ECall "Skill" [] [("name", (EVar "name")); ("is_GCD", (EBool false)); ("timing_spec", (ECall "TimingSpec"
  [] [("base_cast_time", (EInt 0)); ("animation_lock", (EInt 650)); ("application_delay", (EInt 625))])); ("buff_spec", (ECall "StatusEffectSpec" []
  [("crit_rate_add", (EData (EVar "name") (EStr "crit_rate_add"))); ("duration", (EData (EVar "name") (EStr "duration"))); ("is_party_effect", (EBool
  true))]))])].

(** simulator/game_data/class_skills/melee/drg.py lines 235-296: fang_and_claw *)
Definition drg_m11 : pmethod := mkMethod "fang_and_claw" []
  [SAsg "name" (EStr "Fang and Claw"); SRet (ECall "Skill" [] [("name", (EVar "name")); ("is_GCD", (EBool true)); ("combo_spec", (EIf (EVer OGe V70)
  (ETup [(ECall "ComboSpec" [] [("combo_actions", (ETup [(EStr "Heavens' Thrust")]))])]) (ECall "tuple" [] []))); ("damage_spec", (EIf (EVer OGe V70)
  (EDict [((EConst "SimConsts.DEFAULT_CONDITION"), (ECall "DamageSpec" [] [("potency", (EPot (EVar "name")))])); ((EStr "No Positional"), (ECall
  "DamageSpec" [] [("potency", (EPotNP (EVar "name")))])); ((EStr "No Combo"), (ECall "DamageSpec" [] [("potency", (EPotNC (EVar "name")))])); ((EStr
  "No Combo, No Positional"), (ECall "DamageSpec" [] [("potency", (EData (EVar "name") (EStr "potency_no_pos_no_combo")))]))]) (EDict [((EConst
  "SimConsts.DEFAULT_CONDITION"), (ECall "DamageSpec" [] [("potency", (EPot (EVar "name")))])); ((EStr "No Positional"), (ECall "DamageSpec" []
  [("potency", (EPotNP (EVar "name")))])); ((EStr "Wheeling Thrust"), (ECall "DamageSpec" [] [("potency", (EData (EVar "name") (EStr
  "potency_wheeling")))])); ((EStr "Wheeling Thrust, No Positional"), (ECall "DamageSpec" [] [("potency", (EData (EVar "name") (EStr
  "potency_wheeling_no_pos")))]))]))); ("timing_spec", (ECall "TimingSpec" [] [("base_cast_time", (EInt 0)); ("animation_lock", (EInt 600));
  ("application_delay", (EInt 620))])); ("buff_spec", (EDict [((EConst "SimConsts.DEFAULT_CONDITION"), (ECall "StatusEffectSpec" []
  [("add_to_skill_modifier_condition", (EBool true)); ("num_uses", (EInt 1)); ("duration", (EBin BMul (EInt 30) (EInt 1000))); ("skill_allowlist",
  (ESelf "__drg_weapon_skills"))])); ((EStr "Wheeling Thrust"), ENone)]))])].

(** simulator/game_data/class_skills/melee/drg.py lines 299-357: wheeling_thrust *)
Definition drg_m12 : pmethod := mkMethod "wheeling_thrust" []
  [SAsg "name" (EStr "Wheeling Thrust"); SRet (ECall "Skill" [] [("name", (EVar "name")); ("is_GCD", (EBool true)); ("combo_spec", (EIf (EVer OGe V70)
  (ETup [(ECall "ComboSpec" [] [("combo_actions", (ETup [(EStr "Chaotic Spring")]))])]) (ECall "tuple" [] []))); ("damage_spec", (EIf (EVer OGe V70)
  (EDict [((EConst "SimConsts.DEFAULT_CONDITION"), (ECall "DamageSpec" [] [("potency", (EPot (EVar "name")))])); ((EStr "No Positional"), (ECall
  "DamageSpec" [] [("potency", (EPotNP (EVar "name")))])); ((EStr "No Combo"), (ECall "DamageSpec" [] [("potency", (EPotNC (EVar "name")))])); ((EStr
  "No Combo, No Positional"), (ECall "DamageSpec" [] [("potency", (EData (EVar "name") (EStr "potency_no_pos_no_combo")))]))]) (EDict [((EConst
  "SimConsts.DEFAULT_CONDITION"), (ECall "DamageSpec" [] [("potency", (EPot (EVar "name")))])); ((EStr "No Positional"), (ECall "DamageSpec" []
  [("potency", (EPotNP (EVar "name")))])); ((EStr "Fang and Claw"), (ECall "DamageSpec" [] [("potency", (EData (EVar "name") (EStr "potency_fc")))]));
  ((EStr "Fang and Claw, No Positional"), (ECall "DamageSpec" [] [("potency", (EData (EVar "name") (EStr "potency_fc_no_pos")))]))])));
  ("timing_spec", (ECall "TimingSpec" [] [("base_cast_time", (EInt 0)); ("animation_lock", (EInt 600)); ("application_delay", (EInt 620))]));
  ("buff_spec", (EDict [((EConst "SimConsts.DEFAULT_CONDITION"), (ECall "StatusEffectSpec" [] [("add_to_skill_modifier_condition", (EBool true));
  ("num_uses", (EInt 1)); ("duration", (EBin BMul (EInt 30) (EInt 1000))); ("skill_allowlist", (ESelf "__drg_weapon_skills"))])); ((EStr
  "Fang and Claw"), ENone)]))])].

(** simulator/game_data/class_skills/melee/drg.py lines 360-407: geirskogul *)
Definition drg_m13 : pmethod := mkMethod "geirskogul" []
  [SAsg "name" (EStr "Geirskogul"); SIf (EVer OGe V70) [SAsg "life_of_the_dragon_follow_up" (ECall "FollowUp" [] [("skill", (ECall "Skill" []
  [("name", (EStr "Life of the Dragon")); ("buff_spec", (ECall "StatusEffectSpec" [] [("damage_mult", (EFlt 23 20)); ("duration", (EBin BMul (EInt 20)
  (EInt 1000)))]))])); ("delay_after_parent_application", (EInt 0))]); SAsg "geirskogul_damage_follow_up" (ECall "FollowUp" [] [("skill", (ECall
  "Skill" [] [("name", (EVar "name")); ("damage_spec", (EDict [((EConst "SimConsts.DEFAULT_CONDITION"), (ECall "DamageSpec" [] [("potency", (EInt
  280))]))])); ("has_aoe", (EBool true)); ("aoe_dropoff", (EData (EVar "name") (EStr "aoe_dropoff")))])); ("delay_after_parent_application", (EInt
  670)); ("snapshot_buffs_with_parent", (EBool true)); ("snapshot_debuffs_with_parent", (EBool true)); ("primary_target_only", (EBool false))])] [];
  SRet (ECall "Skill" [] [("name", (EVar "name")); ("is_GCD", (EBool false)); ("damage_spec", (EIf (EVer OGe V70) ENone (ECall "DamageSpec" []
  [("potency", (EPot (EVar "name")))]))); ("timing_spec", (ECall "TimingSpec" [] [("base_cast_time", (EInt 0)); ("animation_lock", (EInt 600));
  ("application_delay", (EInt 0))])); ("has_aoe", (EBool true)); ("aoe_dropoff", (EIf (EVer OGe V70) ENone (EData (EVar "name") (EStr
  "aoe_dropoff")))); ("follow_up_skills", (EIf (EVer OGe V70) (ETup [(EVar "geirskogul_damage_follow_up"); (EVar "life_of_the_dragon_follow_up")])
  (ECall "tuple" [] [])))])].

(** simulator/game_data/class_skills/melee/drg.py lines 410-447: sonic_thrust *)
Definition drg_m14 : pmethod := mkMethod "sonic_thrust" []
  [SAsg "name" (EStr "Sonic Thrust"); SAsg "sonic_thrust_damage_follow_up" (ECall "FollowUp" [] [("skill", (ECall "Skill" [] [("name", (EVar "name"));
  ("damage_spec", (ECall "DamageSpec" [] [("potency", (EPot (EVar "name")))])); ("has_aoe", (EBool true))])); ("delay_after_parent_application", (EInt
  800)); ("primary_target_only", (EBool false))]); SAsg "sonic_thrust_no_combo_damage_follow_up" (ECall "FollowUp" [] [("skill", (ECall "Skill" []
  [("name", (EVar "name")); ("damage_spec", (ECall "DamageSpec" [] [("potency", (EPotNC (EVar "name")))])); ("has_aoe", (EBool true))]));
  ("delay_after_parent_application", (EInt 800)); ("primary_target_only", (EBool false))]); SRet (ECall "Skill" [] [("name", (EVar "name"));
  ("is_GCD", (EBool true)); ("combo_spec", (ETup [(ECall "ComboSpec" [] [("combo_actions", (ETup [(EStr "Doom Spike")]))])])); ("timing_spec", (ECall
  "TimingSpec" [] [("base_cast_time", (EInt 0)); ("animation_lock", (EInt 600)); ("application_delay", (EInt 0))])); ("follow_up_skills", (EDict
  [((EConst "SimConsts.DEFAULT_CONDITION"), (ETup [(EVar "sonic_thrust_damage_follow_up"); (EMeth "__get_power_surge_follow_up" [] [])])); ((EStr
  "No Combo"), (ETup [(EVar "sonic_thrust_no_combo_damage_follow_up")]))])); ("has_aoe", (EBool true))])].

(** simulator/game_data/class_skills/melee/drg.py lines 450-462: drakesbane *)
Definition drg_m15 : pmethod := mkMethod "drakesbane" []
  [SIf (EVer OLe V655) [SRet ENone] []; SAsg "name" (EStr "Drakesbane"); SRet (ECall "Skill" [] [("name", (EVar "name")); ("is_GCD", (EBool true));
  ("combo_spec", (ETup [(ECall "ComboSpec" [] [("combo_actions", (ETup [(EStr "Wheeling Thrust"); (EStr "Fang and Claw")]))])])); ("damage_spec",
  (ECall "DamageSpec" [] [("potency", (EPot (EVar "name")))])); ("timing_spec", (ECall "TimingSpec" [] [("base_cast_time", (EInt 0));
  ("animation_lock", (EInt 600)); ("application_delay", (EInt 620))]))])].

(** simulator/game_data/class_skills/melee/drg.py lines 465-486: dragon_sight *)
Definition drg_m16 : pmethod := mkMethod "dragon_sight" []
  [SIf (EVer OGe V70) [SRet ENone] []; SAsg "name" (EStr "Dragon Sight"); SRet (ECall "Skill" [] [("name", (EVar "name")); ("is_GCD", (EBool false));
  ("timing_spec", (EDict [((EConst "SimConsts.DEFAULT_CONDITION"), (ECall "TimingSpec" [] [("base_cast_time", (EInt 0)); ("animation_lock", (EInt
  600)); ("application_delay", (EInt 660))])); ((EStr "Left Eye"), (ECall "TimingSpec" [] [("base_cast_time", (EInt 0)); ("animation_lock", (EInt
  0))]))])); ("buff_spec", (EDict [((EConst "SimConsts.DEFAULT_CONDITION"), (ECall "StatusEffectSpec" [] [("damage_mult", (EFlt 11 10)); ("duration",
  (EBin BMul (EInt 20) (EInt 1000)))])); ((EStr "Left Eye"), (ECall "StatusEffectSpec" [] [("damage_mult", (EFlt 21 20)); ("duration", (EBin BMul
  (EInt 20) (EInt 1000))); ("is_party_effect", (EBool true))]))]))])].

(** simulator/game_data/class_skills/melee/drg.py lines 489-501: left_eye *)
Definition drg_m17 : pmethod := mkMethod "left_eye" []
  [SIf (EVer OGe V70) [SRet ENone] []; SAsg "name" (EStr "Left Eye"); SRet (ECall "Skill" [] [("name", (EVar "name")); ("is_GCD", (EBool false));
  ("timing_spec", (ECall "TimingSpec" [] [("base_cast_time", (EInt 0)); ("animation_lock", (EInt 0))])); ("buff_spec", (ECall "StatusEffectSpec" []
  [("damage_mult", (EFlt 21 20)); ("duration", (EBin BMul (EInt 20) (EInt 1000))); ("is_party_effect", (EBool true))]))])].

(** simulator/game_data/class_skills/melee/drg.py lines 504-513: mirage_dive *)
Definition drg_m18 : pmethod := mkMethod "mirage_dive" []
  [SAsg "name" (EStr "Mirage Dive"); SRet (ECall "Skill" [] [("name", (EVar "name")); ("is_GCD", (EBool false)); ("damage_spec", (ECall "DamageSpec"
  [] [("potency", (EPot (EVar "name")))])); ("timing_spec", (ECall "TimingSpec" [] [("base_cast_time", (EInt 0)); ("animation_lock", (EInt 600));
  ("application_delay", (EInt 800))]))])].

(** simulator/game_data/class_skills/melee/drg.py lines 516-527: nastrond *)
Definition drg_m19 : pmethod := mkMethod "nastrond" []
  [SAsg "name" (EStr "Nastrond"); SRet (ECall "Skill" [] [("name", (EVar "name")); ("is_GCD", (EBool false)); ("damage_spec", (ECall "DamageSpec" []
  [("potency", (EPot (EVar "name")))])); ("timing_spec", (ECall "TimingSpec" [] [("base_cast_time", (EInt 0)); ("animation_lock", (EInt 600));
  ("application_delay", (EInt 760))])); ("has_aoe", (EBool true)); ("aoe_dropoff", (EFlt 1 2))])].

(** simulator/game_data/class_skills/melee/drg.py lines 530-548: coerthan_torment *)
Definition drg_m20 : pmethod := mkMethod "coerthan_torment" []
  [SAsg "name" (EStr "Coerthan Torment"); SRet (ECall "Skill" [] [("name", (EVar "name")); ("is_GCD", (EBool true)); ("combo_spec", (ETup [(ECall
  "ComboSpec" [] [("combo_actions", (ETup [(EStr "Sonic Thrust")]))])])); ("damage_spec", (EDict [((EConst "SimConsts.DEFAULT_CONDITION"), (ECall
  "DamageSpec" [] [("potency", (EPot (EVar "name")))])); ((EStr "No Combo"), (ECall "DamageSpec" [] [("potency", (EPotNC (EVar "name")))]))]));
  ("timing_spec", (ECall "TimingSpec" [] [("base_cast_time", (EInt 0)); ("animation_lock", (EInt 600)); ("application_delay", (EInt 490))]));
  ("has_aoe", (EBool true))])].

(** simulator/game_data/class_skills/melee/drg.py lines 551-560: high_jump *)
Definition drg_m21 : pmethod := mkMethod "high_jump" []
  [SAsg "name" (EStr "High Jump"); SRet (ECall "Skill" [] [("name", (EVar "name")); ("is_GCD", (EBool false)); ("damage_spec", (ECall "DamageSpec" []
  [("potency", (EPot (EVar "name")))])); ("timing_spec", (ECall "TimingSpec" [] [("base_cast_time", (EInt 0)); ("animation_lock", (EInt 800));
  ("application_delay", (EInt 490))]))])].

(** simulator/game_data/class_skills/melee/drg.py lines 563-573: raiden_thrust *)
Definition drg_m22 : pmethod := mkMethod "raiden_thrust" []
  [SAsg "name" (EStr "Raiden Thrust"); SRet (ECall "Skill" [] [("name", (EVar "name")); ("is_GCD", (EBool true)); ("combo_spec", (ETup [(ECall
  "ComboSpec" [] [])])); ("damage_spec", (ECall "DamageSpec" [] [("potency", (EPot (EVar "name")))])); ("timing_spec", (ECall "TimingSpec" []
  [("base_cast_time", (EInt 0)); ("animation_lock", (EInt 600)); ("application_delay", (EInt 620))]))])].

(** simulator/game_data/class_skills/melee/drg.py lines 576-587: stardiver *)
Definition drg_m23 : pmethod := mkMethod "stardiver" []
  [SAsg "name" (EStr "Stardiver"); SRet (ECall "Skill" [] [("name", (EVar "name")); ("is_GCD", (EBool false)); ("damage_spec", (ECall "DamageSpec" []
  [("potency", (EPot (EVar "name")))])); ("timing_spec", (ECall "TimingSpec" [] [("base_cast_time", (EInt 0)); ("animation_lock", (EInt 1500));
  ("application_delay", (EInt 1290))])); ("has_aoe", (EBool true)); ("aoe_dropoff", (EFlt 1 2))])].

(** simulator/game_data/class_skills/melee/drg.py lines 590-600: draconian_fury *)
Definition drg_m24 : pmethod := mkMethod "draconian_fury" []
  [SAsg "name" (EStr "Draconian Fury"); SRet (ECall "Skill" [] [("name", (EVar "name")); ("is_GCD", (EBool true)); ("damage_spec", (ECall "DamageSpec"
  [] [("potency", (EPot (EVar "name")))])); ("timing_spec", (ECall "TimingSpec" [] [("base_cast_time", (EInt 0)); ("animation_lock", (EInt 600));
  ("application_delay", (EInt 760))])); ("has_aoe", (EBool true))])].

(** simulator/game_data/class_skills/melee/drg.py lines 603-624: heavens_thrust *)
Definition drg_m25 : pmethod := mkMethod "heavens_thrust" []
  [SAsg "name" (EStr "Heavens' Thrust"); SRet (ECall "Skill" [] [("name", (EVar "name")); ("is_GCD", (EBool true)); ("combo_spec", (ETup [(ECall
  "ComboSpec" [] [("combo_actions", (EData (EVar "name") (EStr "combo_action")))])])); ("damage_spec", (EDict [((EConst
  "SimConsts.DEFAULT_CONDITION"), (ECall "DamageSpec" [] [("potency", (EPot (EVar "name")))])); ((EStr "No Combo"), (ECall "DamageSpec" []
  [("potency", (EPotNC (EVar "name")))]))])); ("timing_spec", (ECall "TimingSpec" [] [("base_cast_time", (EInt 0)); ("animation_lock", (EInt 600));
  ("application_delay", (EInt 710))]))])].

(** simulator/game_data/class_skills/melee/drg.py lines 627-678: chaotic_spring *)
Definition drg_m26 : pmethod := mkMethod "chaotic_spring" []
  [SAsg "name" (EStr "Chaotic Spring (dot)"); SAsg "_chaotic_spring_follow_up" (ECall "FollowUp" [] [("skill", (ECall "Skill" [] [("name", (EVar
  "name")); ("is_GCD", (EBool false)); ("damage_spec", (ECall "DamageSpec" [] [("potency", (EPot (EVar "name"))); ("damage_class", (EConst
  "DamageClass.PHYSICAL_DOT"))]))])); ("delay_after_parent_application", (EInt 0)); ("dot_duration", (EBin BMul (EInt 24) (EInt 1000)));
  ("snapshot_buffs_with_parent", (EBool true)); ("snapshot_debuffs_with_parent", (EBool true))]); SAsg "name" (EStr "Chaotic Spring"); SRet (ECall
  "Skill" [] [("name", (EVar "name")); ("is_GCD", (EBool true)); ("combo_spec", (ETup [(ECall "ComboSpec" [] [("combo_actions", (EData (EVar "name")
  (EStr "combo_action")))])])); ("damage_spec", (EDict [((EConst "SimConsts.DEFAULT_CONDITION"), (ECall "DamageSpec" [] [("potency", (EPot (EVar
  "name")))])); ((EStr "No Combo"), (ECall "DamageSpec" [] [("potency", (EPotNC (EVar "name")))])); ((EStr "No Positional"), (ECall "DamageSpec" []
  [("potency", (EPotNP (EVar "name")))])); ((EStr "No Combo, No Positional"), (ECall "DamageSpec" [] [("potency", (EData (EVar "name") (EStr
  "potency_no_pos_no_combo")))]))])); ("timing_spec", (ECall "TimingSpec" [] [("base_cast_time", (EInt 0)); ("animation_lock", (EInt 600));
  ("application_delay", (EInt 450))])); ("follow_up_skills", (EDict [((EConst "SimConsts.DEFAULT_CONDITION"), (ETup [(EVar
  "_chaotic_spring_follow_up")])); ((EStr "No Combo"), (ECall "tuple" [] [])); ((EStr "No Positional"), (ETup [(EVar "_chaotic_spring_follow_up")]));
  ((EStr "No Combo, No Positional"), (ECall "tuple" [] []))]))])].

(** simulator/game_data/class_skills/melee/drg.py lines 681-692: wyrmwind_thrust *)
Definition drg_m27 : pmethod := mkMethod "wyrmwind_thrust" []
  [SAsg "name" (EStr "Wyrmwind Thrust"); SRet (ECall "Skill" [] [("name", (EVar "name")); ("is_GCD", (EBool false)); ("damage_spec", (ECall
  "DamageSpec" [] [("potency", (EPot (EVar "name")))])); ("timing_spec", (ECall "TimingSpec" [] [("base_cast_time", (EInt 0)); ("animation_lock",
  (EInt 600)); ("application_delay", (EInt 1200))])); ("has_aoe", (EBool true)); ("aoe_dropoff", (EFlt 1 2))])].

(** simulator/game_data/class_skills/melee/drg.py lines 695-708: rise_of_the_dragon *)
Definition drg_m28 : pmethod := mkMethod "rise_of_the_dragon" []
  [SIf (ELev OLt K92) [SRet ENone] []; SAsg "name" (EStr "Rise of the Dragon"); SRet (ECall "Skill" [] [("name", (EVar "name")); ("is_GCD", (EBool
  false)); ("damage_spec", (ECall "DamageSpec" [] [("potency", (EPot (EVar "name")))])); ("timing_spec", (ECall "TimingSpec" [] [("base_cast_time",
  (EInt 0)); ("animation_lock", (EInt 600)); ("application_delay", (EInt 1160))])); ("has_aoe", (EBool true)); ("aoe_dropoff", (EFlt 1 2))])].

(** simulator/game_data/class_skills/melee/drg.py lines 711-730: lance_barrage *)
Definition drg_m29 : pmethod := mkMethod "lance_barrage" []
  [SIf (ELev OLt K96) [SRet ENone] []; SAsg "name" (EStr "Lance Barrage"); SRet (ECall "Skill" [] [("name", (EVar "name")); ("is_GCD", (EBool true));
  ("combo_spec", (ETup [(ECall "ComboSpec" [] [("combo_actions", (ETup [(EStr "True Thrust"); (EStr "Raiden Thrust")]))])])); ("damage_spec", (EDict
  [((EConst "SimConsts.DEFAULT_CONDITION"), (ECall "DamageSpec" [] [("potency", (EPot (EVar "name")))])); ((EStr "No Combo"), (ECall "DamageSpec" []
  [("potency", (EPotNC (EVar "name")))]))])); ("timing_spec", (ECall "TimingSpec" [] [("base_cast_time", (EInt 0)); ("animation_lock", (EInt 600));
  ("application_delay", (EInt 940))]))])].

(** simulator/game_data/class_skills/melee/drg.py lines 733-759: spiral_blow *)
Definition drg_m30 : pmethod := mkMethod "spiral_blow" []
  [SIf (ELev OLt K96) [SRet ENone] []; SAsg "name" (EStr "Spiral Blow"); SAsg "spiral_blow_damage_follow_up" (ECall "FollowUp" [] [("skill", (ECall
  "Skill" [] [("name", (EVar "name")); ("damage_spec", (ECall "DamageSpec" [] [("potency", (EInt 300))]))])); ("delay_after_parent_application", (EInt
  1380))]); SAsg "spiral_blow_no_combo_damage_follow_up" (ECall "FollowUp" [] [("skill", (ECall "Skill" [] [("name", (EVar "name")); ("damage_spec",
  (ECall "DamageSpec" [] [("potency", (EInt 140))]))])); ("delay_after_parent_application", (EInt 1380))]); SRet (ECall "Skill" [] [("name", (EVar
  "name")); ("is_GCD", (EBool true)); ("combo_spec", (ETup [(ECall "ComboSpec" [] [("combo_actions", (ETup [(EStr "True Thrust"); (EStr
  "Raiden Thrust")]))])])); ("timing_spec", (ECall "TimingSpec" [] [("base_cast_time", (EInt 0)); ("animation_lock", (EInt 600));
  ("application_delay", (EInt 0))])); ("follow_up_skills", (EDict [((EConst "SimConsts.DEFAULT_CONDITION"), (ETup [(EVar
  "spiral_blow_damage_follow_up"); (EMeth "__get_power_surge_follow_up" [] [])])); ((EStr "No Combo"), (ETup [(EVar
  "spiral_blow_no_combo_damage_follow_up")]))]))])].

(** simulator/game_data/class_skills/melee/drg.py lines 762-775: starcross *)
Definition drg_m31 : pmethod := mkMethod "starcross" []
  [SIf (ELev OLt K100) [SRet ENone] []; SAsg "name" (EStr "Starcross"); SRet (ECall "Skill" [] [("name", (EVar "name")); ("is_GCD", (EBool false));
  ("damage_spec", (ECall "DamageSpec" [] [("potency", (EInt 700))])); ("timing_spec", (ECall "TimingSpec" [] [("base_cast_time", (EInt 0));
  ("animation_lock", (EInt 600)); ("application_delay", (EInt 980))])); ("has_aoe", (EBool true)); ("aoe_dropoff", (EFlt 1 2))])].

(** simulator/game_data/class_skills/melee/drg.py lines 778-790: life_surge *)
Definition drg_m32 : pmethod := mkMethod "life_surge" []
  [SAsg "name" (EStr "Life Surge"); SRet (ECall "Skill" [] [("name", (EVar "name")); ("is_GCD", (EBool false)); ("timing_spec", (ECall "TimingSpec" []
  [("base_cast_time", (EInt 0)); ("animation_lock", (EInt 600))])); ("buff_spec", (ECall "StatusEffectSpec" [] [("guaranteed_crit", (EConst
  "ForcedCritOrDH.FORCE_YES")); ("duration", (EBin BMul (EInt 5) (EInt 1000))); ("num_uses", (EInt 1)); ("skill_allowlist", (ESelf
  "__drg_weapon_skills"))]))])].

(** simulator/game_data/class_skills/melee/drg.py lines 797-799: true_north *)
Definition drg_m33 : pmethod := mkMethod "true_north" []
  [SAsg "name" (EStr "True North"); SRet (ECall "Skill" [] [("name", (EVar "name")); ("is_GCD", (EBool false)); ("timing_spec", (ESelf
  "instant_timing_spec"))])].

(** simulator/game_data/class_skills/melee/drg.py lines 802-804: winged_glide *)
Definition drg_m34 : pmethod := mkMethod "winged_glide" []
  [SAsg "name" (EStr "Winged Glide"); SRet (ECall "Skill" [] [("name", (EVar "name")); ("is_GCD", (EBool false)); ("timing_spec", (ESelf
  "instant_timing_spec"))])].

(** simulator/game_data/class_skills/melee/drg.py lines 807-832: elusive_jump *)
Definition drg_m35 : pmethod := mkMethod "elusive_jump" []
  [SAsg "drg_follow_ups" (EIf (EVer OGe V71) (ETup [(ECall "FollowUp" [] [("skill", (ECall "Skill" [] [("name", (EStr "Enhanced Piercing Talon"));
  ("buff_spec", (ECall "StatusEffectSpec" [] [("duration", (EBin BMul (EInt 15) (EInt 1000))); ("num_uses", (EInt 1)); ("skill_allowlist", (ETup
  [(EStr "Piercing Talon")])); ("add_to_skill_modifier_condition", (EBool true))]))])); ("delay_after_parent_application", (EInt 0))])]) (ECall
  "tuple" [] [])); SRet (ECall "Skill" [] [("name", (EStr "Elusive Jump")); ("is_GCD", (EBool false)); ("timing_spec", (ECall "TimingSpec" []
  [("base_cast_time", (EInt 0)); ("animation_lock", (EInt 800))])); ("follow_up_skills", (EVar "drg_follow_ups"))])].

(** simulator/game_data/class_skills/melee/drg.py lines 19-39: __init__ after super().__init__ *)
Definition drg_init : list stmt :=
  [SAttr "_job_class" (EStr "DRG"); SAttr "__drg_weapon_skills" (ETup [(EStr "True Thrust"); (EStr "Vorpal Thrust"); (EStr "Piercing Talon"); (EStr
  "Disembowel"); (EStr "Doom Spike"); (EStr "Fang and Claw"); (EStr "Wheeling Thrust"); (EStr "Sonic Thrust"); (EStr "Coerthan Torment"); (EStr
  "Raiden Thrust"); (EStr "Draconian Fury"); (EStr "Heavens' Thrust"); (EStr "Chaotic Spring"); (EStr "Drakesbane"); (EStr "Lance Barrage"); (EStr
  "Spiral Blow")])].

(** simulator/game_data/class_skills/melee/drg.py lines 17-832: class DrgSkills; the decorated methods in the order of [dir] *)
Definition drg_class : pclass := mkClass [] drg_init
  [drg_m0; drg_m1; drg_m2; drg_m3; drg_m4; drg_m5; drg_m6; drg_m7; drg_m8; drg_m9; drg_m10; drg_m11; drg_m12; drg_m13; drg_m14; drg_m15; drg_m16;
  drg_m17; drg_m18; drg_m19; drg_m20; drg_m21; drg_m22; drg_m23; drg_m24; drg_m25; drg_m26; drg_m27; drg_m28; drg_m29; drg_m30; drg_m31; drg_m32;
  drg_m33; drg_m34; drg_m35]
  ["auto"; "battle_litany"; "chaotic_spring"; "coerthan_torment"; "disembowel"; "doom_spike"; "draconian_fury"; "dragon_sight"; "dragonfire_dive";
  "drakesbane"; "elusive_jump"; "fang_and_claw"; "geirskogul"; "heavens_thrust"; "high_jump"; "lance_barrage"; "lance_charge"; "left_eye";
  "life_surge"; "mirage_dive"; "nastrond"; "piercing_talon"; "raiden_thrust"; "rise_of_the_dragon"; "sonic_thrust"; "spineshatter_dive";
  "spiral_blow"; "starcross"; "stardiver"; "true_north"; "true_thrust"; "vorpal_thrust"; "wheeling_thrust"; "winged_glide"; "wyrmwind_thrust"]
  []
  drg_data.
