(** * GNB: the shipped skill definitions.

    Generated by tools/gen_game_data.py from
    simulator/game_data/class_skills/tank/gnb.py and simulator/game_data/class_skills/tank/gnb_data.py. *)

From Coq Require Import ZArith List String.
From Verif Require Import Py.
Import ListNotations.
Open Scope string_scope.
Open Scope Z_scope.

(** simulator/game_data/class_skills/tank/gnb_data.py lines 8-45, in dict-literal order *)
Definition gnb_data : data_table := [
  ("Keen Edge", [(90, [("potency", [(V655, (EInt 200))])]); (100, [("potency", [(V70, (EInt 300))])])]);
  ("Brutal Shell", [(90, [("potency", [(V655, (EInt 300))]); ("potency_no_combo", [(V655, (EInt 160))])]); (100, [("potency", [(V70, (EInt 380))]);
  ("potency_no_combo", [(V70, (EInt 240))])])]);
  ("Demon Slice", [(90, [("potency", [(V655, (EInt 100))])]); (100, [("potency", [(V70, (EInt 100))])])]);
  ("Lightning Shot", [(90, [("potency", [(V655, (EInt 150))])]); (100, [("potency", [(V70, (EInt 150))])])]);
  ("Solid Barrel", [(90, [("potency", [(V655, (EInt 360))]); ("potency_no_combo", [(V655, (EInt 140))])]); (100, [("potency", [(V70, (EInt 460))]);
  ("potency_no_combo", [(V70, (EInt 240))])])]);
  ("Burst Strike", [(90, [("potency", [(V655, (EInt 380))])]); (100, [("potency", [(V70, (EInt 460))])])]);
  ("Demon Slaughter", [(90, [("potency", [(V655, (EInt 160))]); ("potency_no_combo", [(V655, (EInt 100))])]); (100, [("potency", [(V70, (EInt 160))]);
  ("potency_no_combo", [(V70, (EInt 100))])])]);
  ("Sonic Break (dot)", [(90, [("potency", [(V655, (EInt 60))])]); (100, [("potency", [(V70, (EInt 60))])])]);
  ("Sonic Break", [(90, [("potency", [(V655, (EInt 300))])]); (100, [("potency", [(V70, (EInt 300))])])]);
  ("Rough Divide", [(90, [("potency", [(V655, (EInt 150))])])]);
  ("Gnashing Fang", [(90, [("potency", [(V655, (EInt 380))])]); (100, [("potency", [(V70, (EInt 500))])])]);
  ("Savage Claw", [(90, [("potency", [(V655, (EInt 460))])]); (100, [("potency", [(V70, (EInt 560))])])]);
  ("Wicked Talon", [(90, [("potency", [(V655, (EInt 540))])]); (100, [("potency", [(V70, (EInt 620))])])]);
  ("Bow Shock (dot)", [(90, [("potency", [(V655, (EInt 60))])]); (100, [("potency", [(V70, (EInt 60))])])]);
  ("Bow Shock", [(90, [("potency", [(V655, (EInt 150))])]); (100, [("potency", [(V70, (EInt 150))])])]);
  ("Jugular Rip", [(90, [("potency", [(V655, (EInt 200))])]); (100, [("potency", [(V70, (EInt 240))])])]);
  ("Abdomen Tear", [(90, [("potency", [(V655, (EInt 240))])]); (100, [("potency", [(V70, (EInt 280))])])]);
  ("Eye Gouge", [(90, [("potency", [(V655, (EInt 280))])]); (100, [("potency", [(V70, (EInt 320))])])]);
  ("Fated Circle", [(90, [("potency", [(V655, (EInt 300))])]); (100, [("potency", [(V70, (EInt 300))])])]);
  ("Blasting Zone", [(90, [("potency", [(V655, (EInt 720))])]); (100, [("potency", [(V70, (EInt 800))])])]);
  ("Hypervelocity", [(90, [("potency", [(V655, (EInt 180)); (V71, (EInt 160))])]); (100, [("potency", [(V70, (EInt 220)); (V71, (EInt 200))])])]);
  ("Double Down", [(90, [("potency", [(V655, (EInt 1200))])]); (100, [("potency", [(V70, (EInt 1200))])])]);
  ("Fated Brand", [(100, [("potency", [(V70, (EInt 120))])])]);
  ("Reign of Beasts", [(100, [("potency", [(V70, (EInt 800))])])]);
  ("Noble Blood", [(100, [("potency", [(V70, (EInt 1000))])])]);
  ("Lion Heart", [(100, [("potency", [(V70, (EInt 1200))])])])].

(** simulator/game_data/class_skills/tank/gnb.py lines 22-30: get_combo_breakers *)
Definition gnb_m0 : pmethod := mkMethod "get_combo_breakers" []
  [SRet (ETup [(ETup [(EInt 0); (ETup [(EInt 2)])]); (ETup [(EInt 1); (ETup [(EInt 0); (EInt 1)])]); (ETup [(EInt 2); (ETup [(EInt 0)])])])].

(** simulator/game_data/class_skills/tank/gnb.py lines 33-42: auto *)
Definition gnb_m1 : pmethod := mkMethod "auto" []
  [SAsg "name" (EStr "Auto"); SRet (ECall "Skill" [] [("name", (EVar "name")); ("is_GCD", (EBool false)); ("timing_spec", (ESelf "auto_timing_spec"));
  ("damage_spec", (ECall "DamageSpec" [] [("potency", (EInt 90)); ("damage_class", (EConst "DamageClass.AUTO")); ("trait_damage_mult_override", (EInt
  1))]))])].

(** simulator/game_data/class_skills/tank/gnb.py lines 45-55: keen_edge *)
Definition gnb_m2 : pmethod := mkMethod "keen_edge" []
  [SAsg "name" (EStr "Keen Edge"); SRet (ECall "Skill" [] [("name", (EVar "name")); ("is_GCD", (EBool true)); ("damage_spec", (ECall "DamageSpec" []
  [("potency", (EPot (EVar "name")))])); ("combo_spec", (ETup [(ECall "ComboSpec" [] [("combo_group", (EInt 0))])])); ("timing_spec", (ECall
  "TimingSpec" [] [("base_cast_time", (EInt 0)); ("animation_lock", (EInt 650)); ("application_delay", (EInt 893))]))])].

(** simulator/game_data/class_skills/tank/gnb.py lines 58-67: no_mercy *)
Definition gnb_m3 : pmethod := mkMethod "no_mercy" []
  [SAsg "name" (EStr "No Mercy"); SRet (ECall "Skill" [] [("name", (EVar "name")); ("is_GCD", (EBool false)); ("buff_spec", (ECall "StatusEffectSpec"
  [] [("duration", (ECall "int" [(EBin BMul (EFlt 499 25) (EInt 1000))] [])); ("damage_mult", (EFlt 6 5))])); ("timing_spec", (ECall "TimingSpec" []
  [("base_cast_time", (EInt 0)); ("animation_lock", (EInt 650)); ("application_delay", (EInt 620))]))])].

(** simulator/game_data/class_skills/tank/gnb.py lines 70-87: brutal_shell *)
Definition gnb_m4 : pmethod := mkMethod "brutal_shell" []
  [SAsg "name" (EStr "Brutal Shell"); SRet (ECall "Skill" [] [("name", (EVar "name")); ("is_GCD", (EBool true)); ("damage_spec", (EDict [((EConst
  "SimConsts.DEFAULT_CONDITION"), (ECall "DamageSpec" [] [("potency", (EPot (EVar "name")))])); ((EStr "No Combo"), (ECall "DamageSpec" []
  [("potency", (EPotNC (EVar "name")))]))])); ("combo_spec", (ETup [(ECall "ComboSpec" [] [("combo_group", (EInt 0)); ("combo_actions", (ETup [(EStr
  "Keen Edge")]))])])); ("timing_spec", (ECall "TimingSpec" [] [("base_cast_time", (EInt 0)); ("animation_lock", (EInt 650)); ("application_delay",
  (EInt 1074))]))])].

(** simulator/game_data/class_skills/tank/gnb.py lines 90-101: demon_slice *)
Definition gnb_m5 : pmethod := mkMethod "demon_slice" []
  [SAsg "name" (EStr "Demon Slice"); SRet (ECall "Skill" [] [("name", (EVar "name")); ("is_GCD", (EBool true)); ("damage_spec", (ECall "DamageSpec" []
  [("potency", (EPot (EVar "name")))])); ("combo_spec", (ETup [(ECall "ComboSpec" [] [("combo_group", (EInt 2))])])); ("timing_spec", (ECall
  "TimingSpec" [] [("base_cast_time", (EInt 0)); ("animation_lock", (EInt 650)); ("application_delay", (EInt 626))])); ("has_aoe", (EBool true))])].

(** simulator/game_data/class_skills/tank/gnb.py lines 104-113: lightning_shot *)
Definition gnb_m6 : pmethod := mkMethod "lightning_shot" []
  [SAsg "name" (EStr "Lightning Shot"); SRet (ECall "Skill" [] [("name", (EVar "name")); ("is_GCD", (EBool true)); ("damage_spec", (ECall "DamageSpec"
  [] [("potency", (EPot (EVar "name")))])); ("timing_spec", (ECall "TimingSpec" [] [("base_cast_time", (EInt 0)); ("animation_lock", (EInt 650));
  ("application_delay", (EInt 716))]))])].

(** simulator/game_data/class_skills/tank/gnb.py lines 116-133: solid_barrel *)
Definition gnb_m7 : pmethod := mkMethod "solid_barrel" []
  [SAsg "name" (EStr "Solid Barrel"); SRet (ECall "Skill" [] [("name", (EVar "name")); ("is_GCD", (EBool true)); ("damage_spec", (EDict [((EConst
  "SimConsts.DEFAULT_CONDITION"), (ECall "DamageSpec" [] [("potency", (EPot (EVar "name")))])); ((EStr "No Combo"), (ECall "DamageSpec" []
  [("potency", (EPotNC (EVar "name")))]))])); ("combo_spec", (ETup [(ECall "ComboSpec" [] [("combo_group", (EInt 0)); ("combo_actions", (ETup [(EStr
  "Brutal Shell")]))])])); ("timing_spec", (ECall "TimingSpec" [] [("base_cast_time", (EInt 0)); ("animation_lock", (EInt 650)); ("application_delay",
  (EInt 1653))]))])].

(** simulator/game_data/class_skills/tank/gnb.py lines 136-145: burst_strike *)
Definition gnb_m8 : pmethod := mkMethod "burst_strike" []
  [SAsg "name" (EStr "Burst Strike"); SRet (ECall "Skill" [] [("name", (EVar "name")); ("is_GCD", (EBool true)); ("damage_spec", (ECall "DamageSpec"
  [] [("potency", (EPot (EVar "name")))])); ("timing_spec", (ECall "TimingSpec" [] [("base_cast_time", (EInt 0)); ("animation_lock", (EInt 650));
  ("application_delay", (EInt 714))]))])].

(** simulator/game_data/class_skills/tank/gnb.py lines 148-166: demon_slaughter *)
Definition gnb_m9 : pmethod := mkMethod "demon_slaughter" []
  [SAsg "name" (EStr "Demon Slaughter"); SRet (ECall "Skill" [] [("name", (EVar "name")); ("is_GCD", (EBool true)); ("damage_spec", (EDict [((EConst
  "SimConsts.DEFAULT_CONDITION"), (ECall "DamageSpec" [] [("potency", (EPot (EVar "name")))])); ((EStr "No Combo"), (ECall "DamageSpec" []
  [("potency", (EPotNC (EVar "name")))]))])); ("combo_spec", (ETup [(ECall "ComboSpec" [] [("combo_group", (EInt 2)); ("combo_actions", (ETup [(EStr
  "Demon Slice")]))])])); ("timing_spec", (ECall "TimingSpec" [] [("base_cast_time", (EInt 0)); ("animation_lock", (EInt 650)); ("application_delay",
  (EInt 626))])); ("has_aoe", (EBool true))])].

(** simulator/game_data/class_skills/tank/gnb.py lines 169-197: sonic_break *)
Definition gnb_m10 : pmethod := mkMethod "sonic_break" []
  [SAsg "name" (EStr "Sonic Break (dot)"); SAsg "sonic_break_dot_gnb" (ECall "Skill" [] [("name", (EVar "name")); ("is_GCD", (EBool false));
  ("damage_spec", (ECall "DamageSpec" [] [("potency", (EPot (EVar "name"))); ("damage_class", (EConst "DamageClass.PHYSICAL_DOT"))]))]); SAsg "name"
  (EStr "Sonic Break"); SRet (ECall "Skill" [] [("name", (EVar "name")); ("is_GCD", (EBool true)); ("timing_spec", (ECall "TimingSpec" []
  [("base_cast_time", (EInt 0)); ("animation_lock", (EInt 650)); ("application_delay", (EInt 581))])); ("damage_spec", (ECall "DamageSpec" []
  [("potency", (EPot (EVar "name")))])); ("follow_up_skills", (ETup [(ECall "FollowUp" [] [("skill", (EVar "sonic_break_dot_gnb"));
  ("delay_after_parent_application", (EInt 0)); ("dot_duration", (EBin BMul (EInt 30) (EInt 1000))); ("snapshot_buffs_with_parent", (EBool true));
  ("snapshot_debuffs_with_parent", (EBool true))])]))])].

(** simulator/game_data/class_skills/tank/gnb.py lines 200-212: rough_divide *)
Definition gnb_m11 : pmethod := mkMethod "rough_divide" []
  [SIf (EVer OGe V70) [SRet ENone] []; SAsg "name" (EStr "Rough Divide"); SRet (ECall "Skill" [] [("name", (EVar "name")); ("is_GCD", (EBool false));
  ("damage_spec", (ECall "DamageSpec" [] [("potency", (EPot (EVar "name")))])); ("timing_spec", (ECall "TimingSpec" [] [("base_cast_time", (EInt 0));
  ("animation_lock", (EInt 650)); ("application_delay", (EInt 491))]))])].

(** simulator/game_data/class_skills/tank/gnb.py lines 215-225: gnashing_fang *)
Definition gnb_m12 : pmethod := mkMethod "gnashing_fang" []
  [SAsg "name" (EStr "Gnashing Fang"); SRet (ECall "Skill" [] [("name", (EVar "name")); ("is_GCD", (EBool true)); ("damage_spec", (ECall "DamageSpec"
  [] [("potency", (EPot (EVar "name")))])); ("combo_spec", (ETup [(ECall "ComboSpec" [] [("combo_group", (EInt 1))])])); ("timing_spec", (ECall
  "TimingSpec" [] [("base_cast_time", (EInt 0)); ("animation_lock", (EInt 650)); ("application_delay", (EInt 623))]))])].

(** simulator/game_data/class_skills/tank/gnb.py lines 228-238: savage_claw *)
Definition gnb_m13 : pmethod := mkMethod "savage_claw" []
  [SAsg "name" (EStr "Savage Claw"); SRet (ECall "Skill" [] [("name", (EVar "name")); ("is_GCD", (EBool true)); ("damage_spec", (ECall "DamageSpec" []
  [("potency", (EPot (EVar "name")))])); ("combo_spec", (ETup [(ECall "ComboSpec" [] [("combo_group", (EInt 1)); ("combo_actions", (ETup [(EStr
  "Gnashing Fang")]))])])); ("timing_spec", (ECall "TimingSpec" [] [("base_cast_time", (EInt 0)); ("animation_lock", (EInt 650));
  ("application_delay", (EInt 625))]))])].

(** simulator/game_data/class_skills/tank/gnb.py lines 241-251: wicked_talon *)
Definition gnb_m14 : pmethod := mkMethod "wicked_talon" []
  [SAsg "name" (EStr "Wicked Talon"); SRet (ECall "Skill" [] [("name", (EVar "name")); ("is_GCD", (EBool true)); ("damage_spec", (ECall "DamageSpec"
  [] [("potency", (EPot (EVar "name")))])); ("combo_spec", (ETup [(ECall "ComboSpec" [] [("combo_group", (EInt 1)); ("combo_actions", (ETup [(EStr
  "Savage Claw")]))])])); ("timing_spec", (ECall "TimingSpec" [] [("base_cast_time", (EInt 0)); ("animation_lock", (EInt 650)); ("application_delay",
  (EInt 1162))]))])].

(** simulator/game_data/class_skills/tank/gnb.py lines 254-283: bow_shock *)
Definition gnb_m15 : pmethod := mkMethod "bow_shock" []
  [SAsg "name" (EStr "Bow Shock (dot)"); SAsg "bow_shock_dot_gnb" (ECall "Skill" [] [("name", (EVar "name")); ("is_GCD", (EBool false));
  ("damage_spec", (ECall "DamageSpec" [] [("potency", (EPot (EVar "name"))); ("damage_class", (EConst "DamageClass.PHYSICAL_DOT"))]))]); SAsg "name"
  (EStr "Bow Shock"); SRet (ECall "Skill" [] [("name", (EVar "name")); ("is_GCD", (EBool false)); ("timing_spec", (ECall "TimingSpec" []
  [("base_cast_time", (EInt 0)); ("animation_lock", (EInt 650)); ("application_delay", (EInt 627))])); ("damage_spec", (ECall "DamageSpec" []
  [("potency", (EPot (EVar "name")))])); ("follow_up_skills", (ETup [(ECall "FollowUp" [] [("skill", (EVar "bow_shock_dot_gnb"));
  ("delay_after_parent_application", (EInt 0)); ("dot_duration", (EBin BMul (EInt 15) (EInt 1000))); ("snapshot_buffs_with_parent", (EBool true));
  ("snapshot_debuffs_with_parent", (EBool true))])])); ("has_aoe", (EBool true))])].

(** simulator/game_data/class_skills/tank/gnb.py lines 286-295: jugular_rip *)
Definition gnb_m16 : pmethod := mkMethod "jugular_rip" []
  [SAsg "name" (EStr "Jugular Rip"); SRet (ECall "Skill" [] [("name", (EVar "name")); ("is_GCD", (EBool false)); ("damage_spec", (ECall "DamageSpec"
  [] [("potency", (EPot (EVar "name")))])); ("timing_spec", (ECall "TimingSpec" [] [("base_cast_time", (EInt 0)); ("animation_lock", (EInt 650));
  ("application_delay", (EInt 802))]))])].

(** simulator/game_data/class_skills/tank/gnb.py lines 298-307: abdomen_tear *)
Definition gnb_m17 : pmethod := mkMethod "abdomen_tear" []
  [SAsg "name" (EStr "Abdomen Tear"); SRet (ECall "Skill" [] [("name", (EVar "name")); ("is_GCD", (EBool false)); ("damage_spec", (ECall "DamageSpec"
  [] [("potency", (EPot (EVar "name")))])); ("timing_spec", (ECall "TimingSpec" [] [("base_cast_time", (EInt 0)); ("animation_lock", (EInt 650));
  ("application_delay", (EInt 757))]))])].

(** simulator/game_data/class_skills/tank/gnb.py lines 310-319: eye_gouge *)
Definition gnb_m18 : pmethod := mkMethod "eye_gouge" []
  [SAsg "name" (EStr "Eye Gouge"); SRet (ECall "Skill" [] [("name", (EVar "name")); ("is_GCD", (EBool false)); ("damage_spec", (ECall "DamageSpec" []
  [("potency", (EPot (EVar "name")))])); ("timing_spec", (ECall "TimingSpec" [] [("base_cast_time", (EInt 0)); ("animation_lock", (EInt 650));
  ("application_delay", (EInt 981))]))])].

(** simulator/game_data/class_skills/tank/gnb.py lines 322-332: fated_circle *)
Definition gnb_m19 : pmethod := mkMethod "fated_circle" []
  [SAsg "name" (EStr "Fated Circle"); SRet (ECall "Skill" [] [("name", (EVar "name")); ("is_GCD", (EBool true)); ("damage_spec", (ECall "DamageSpec"
  [] [("potency", (EPot (EVar "name")))])); ("timing_spec", (ECall "TimingSpec" [] [("base_cast_time", (EInt 0)); ("animation_lock", (EInt 650));
  ("application_delay", (EInt 537))])); ("has_aoe", (EBool true))])].

(** simulator/game_data/class_skills/tank/gnb.py lines 335-344: blasting_zone *)
Definition gnb_m20 : pmethod := mkMethod "blasting_zone" []
  [SAsg "name" (EStr "Blasting Zone"); SRet (ECall "Skill" [] [("name", (EVar "name")); ("is_GCD", (EBool false)); ("damage_spec", (ECall "DamageSpec"
  [] [("potency", (EPot (EVar "name")))])); ("timing_spec", (ECall "TimingSpec" [] [("base_cast_time", (EInt 0)); ("animation_lock", (EInt 650));
  ("application_delay", (EInt 625))]))])].

(** simulator/game_data/class_skills/tank/gnb.py lines 347-356: hypervelocity *)
Definition gnb_m21 : pmethod := mkMethod "hypervelocity" []
  [SAsg "name" (EStr "Hypervelocity"); SRet (ECall "Skill" [] [("name", (EVar "name")); ("is_GCD", (EBool false)); ("damage_spec", (ECall "DamageSpec"
  [] [("potency", (EPot (EVar "name")))])); ("timing_spec", (ECall "TimingSpec" [] [("base_cast_time", (EInt 0)); ("animation_lock", (EInt 650));
  ("application_delay", (EInt 758))]))])].

(** simulator/game_data/class_skills/tank/gnb.py lines 359-374: double_down *)
Definition gnb_m22 : pmethod := mkMethod "double_down" []
  [SAsg "name" (EStr "Double Down"); SRet (ECall "Skill" [] [("name", (EVar "name")); ("is_GCD", (EBool true)); ("damage_spec", (EDict [((EConst
  "SimConsts.DEFAULT_CONDITION"), (ECall "DamageSpec" [] [("potency", (EPot (EVar "name")))]))])); ("timing_spec", (ECall "TimingSpec" []
  [("base_cast_time", (EInt 0)); ("animation_lock", (EInt 650)); ("application_delay", (EInt 716))])); ("has_aoe", (EBool true)); ("aoe_dropoff",
  (EFlt 3 20))])].

(** simulator/game_data/class_skills/tank/gnb.py lines 377-390: fated_brand *)
Definition gnb_m23 : pmethod := mkMethod "fated_brand" []
  [SIf (ELev OLt K96) [SRet ENone] []; SAsg "name" (EStr "Fated Brand"); SRet (ECall "Skill" [] [("name", (EVar "name")); ("is_GCD", (EBool false));
  ("damage_spec", (ECall "DamageSpec" [] [("potency", (EPot (EVar "name")))])); ("timing_spec", (ECall "TimingSpec" [] [("base_cast_time", (EInt 0));
  ("animation_lock", (EInt 650)); ("application_delay", (EInt 1160))])); ("has_aoe", (EBool true))])].

(** simulator/game_data/class_skills/tank/gnb.py lines 393-411: reign_of_beasts *)
Definition gnb_m24 : pmethod := mkMethod "reign_of_beasts" []
  [SIf (ELev OLt K100) [SRet ENone] []; SAsg "name" (EStr "Reign of Beasts"); SRet (ECall "Skill" [] [("name", (EVar "name")); ("is_GCD", (EBool
  true)); ("damage_spec", (EDict [((EConst "SimConsts.DEFAULT_CONDITION"), (ECall "DamageSpec" [] [("potency", (EPot (EVar "name")))]))]));
  ("timing_spec", (ECall "TimingSpec" [] [("base_cast_time", (EInt 0)); ("animation_lock", (EInt 650)); ("application_delay", (EInt 1160))]));
  ("has_aoe", (EBool true)); ("aoe_dropoff", (EFlt 3 5))])].

(** simulator/game_data/class_skills/tank/gnb.py lines 414-432: noble_blood *)
Definition gnb_m25 : pmethod := mkMethod "noble_blood" []
  [SIf (ELev OLt K100) [SRet ENone] []; SAsg "name" (EStr "Noble Blood"); SRet (ECall "Skill" [] [("name", (EVar "name")); ("is_GCD", (EBool true));
  ("damage_spec", (EDict [((EConst "SimConsts.DEFAULT_CONDITION"), (ECall "DamageSpec" [] [("potency", (EPot (EVar "name")))]))])); ("timing_spec",
  (ECall "TimingSpec" [] [("base_cast_time", (EInt 0)); ("animation_lock", (EInt 650)); ("application_delay", (EInt 1650))])); ("has_aoe", (EBool
  true)); ("aoe_dropoff", (EFlt 3 5))])].

(** simulator/game_data/class_skills/tank/gnb.py lines 435-452: lion_heart *)
Definition gnb_m26 : pmethod := mkMethod "lion_heart" []
  [SIf (ELev OLt K100) [SRet ENone] []; SAsg "name" (EStr "Lion Heart"); SRet (ECall "Skill" [] [("name", (EVar "name")); ("is_GCD", (EBool true));
  ("damage_spec", (EDict [((EConst "SimConsts.DEFAULT_CONDITION"), (ECall "DamageSpec" [] [("potency", (EPot (EVar "name")))]))])); ("timing_spec",
  (ECall "TimingSpec" [] [("base_cast_time", (EInt 0)); ("animation_lock", (EInt 650)); ("application_delay", (EInt 1790))])); ("has_aoe", (EBool
  true)); ("aoe_dropoff", (EFlt 3 5))])].

(** simulator/game_data/class_skills/tank/gnb.py lines 459-462: bloodfest *)
Definition gnb_m27 : pmethod := mkMethod "bloodfest" []
  [SRet (ECall "Skill" [] [("name", (EStr "Bloodfest")); ("is_GCD", (EBool false)); ("timing_spec", (ESelf "instant_timing_spec"))])].

(** simulator/game_data/class_skills/tank/gnb.py lines 465-466: rampart *)
Definition gnb_m28 : pmethod := mkMethod "rampart" []
  [SRet (ECall "Skill" [] [("name", (EStr "Rampart")); ("is_GCD", (EBool false)); ("timing_spec", (ESelf "instant_timing_spec"))])].

(** simulator/game_data/class_skills/tank/gnb.py lines 469-470: provoke *)
Definition gnb_m29 : pmethod := mkMethod "provoke" []
  [SRet (ECall "Skill" [] [("name", (EStr "Provoke")); ("is_GCD", (EBool false)); ("timing_spec", (ESelf "instant_timing_spec"))])].

(** simulator/game_data/class_skills/tank/gnb.py lines 473-476: reprisal *)
Definition gnb_m30 : pmethod := mkMethod "reprisal" []
  [SRet (ECall "Skill" [] [("name", (EStr "Reprisal")); ("is_GCD", (EBool false)); ("timing_spec", (ESelf "instant_timing_spec"))])].

(** simulator/game_data/class_skills/tank/gnb.py lines 479-482: arms_length *)
Definition gnb_m31 : pmethod := mkMethod "arms_length" []
  [SRet (ECall "Skill" [] [("name", (EStr "Arm's Length")); ("is_GCD", (EBool false)); ("timing_spec", (ESelf "instant_timing_spec"))])].

(** simulator/game_data/class_skills/tank/gnb.py lines 485-486: shirk *)
Definition gnb_m32 : pmethod := mkMethod "shirk" []
  [SRet (ECall "Skill" [] [("name", (EStr "Shirk")); ("is_GCD", (EBool false)); ("timing_spec", (ESelf "instant_timing_spec"))])].

(** simulator/game_data/class_skills/tank/gnb.py lines 489-492: camouflage *)
Definition gnb_m33 : pmethod := mkMethod "camouflage" []
  [SRet (ECall "Skill" [] [("name", (EStr "Camouflage")); ("is_GCD", (EBool false)); ("timing_spec", (ESelf "instant_timing_spec"))])].

(** simulator/game_data/class_skills/tank/gnb.py lines 495-498: royal_guard *)
Definition gnb_m34 : pmethod := mkMethod "royal_guard" []
  [SRet (ECall "Skill" [] [("name", (EStr "Royal Guard")); ("is_GCD", (EBool false)); ("timing_spec", (ESelf "instant_timing_spec"))])].

(** simulator/game_data/class_skills/tank/gnb.py lines 501-506: release_royal_guard *)
Definition gnb_m35 : pmethod := mkMethod "release_royal_guard" []
  [SRet (ECall "Skill" [] [("name", (EStr "Release Royal Guard")); ("is_GCD", (EBool false)); ("timing_spec", (ESelf "instant_timing_spec"))])].

(** simulator/game_data/class_skills/tank/gnb.py lines 509-512: nebula *)
Definition gnb_m36 : pmethod := mkMethod "nebula" []
  [SIf (ELev OGe K92) [SRet ENone] []; SRet (ECall "Skill" [] [("name", (EStr "Nebula")); ("is_GCD", (EBool false)); ("timing_spec", (ESelf
  "instant_timing_spec"))])].

(** simulator/game_data/class_skills/tank/gnb.py lines 515-520: great_nebula *)
Definition gnb_m37 : pmethod := mkMethod "great_nebula" []
  [SIf (ELev OLt K92) [SRet ENone] []; SRet (ECall "Skill" [] [("name", (EStr "Great Nebula")); ("is_GCD", (EBool false)); ("timing_spec", (ESelf
  "instant_timing_spec"))])].

(** simulator/game_data/class_skills/tank/gnb.py lines 523-524: aurora *)
Definition gnb_m38 : pmethod := mkMethod "aurora" []
  [SRet (ECall "Skill" [] [("name", (EStr "Aurora")); ("is_GCD", (EBool false)); ("timing_spec", (ESelf "instant_timing_spec"))])].

(** simulator/game_data/class_skills/tank/gnb.py lines 527-530: superbolide *)
Definition gnb_m39 : pmethod := mkMethod "superbolide" []
  [SRet (ECall "Skill" [] [("name", (EStr "Superbolide")); ("is_GCD", (EBool false)); ("timing_spec", (ESelf "instant_timing_spec"))])].

(** simulator/game_data/class_skills/tank/gnb.py lines 533-538: trajectory *)
Definition gnb_m40 : pmethod := mkMethod "trajectory" []
  [SIf (EVer OLt V70) [SRet ENone] []; SRet (ECall "Skill" [] [("name", (EStr "Trajectory")); ("is_GCD", (EBool false)); ("timing_spec", (ESelf
  "instant_timing_spec"))])].

(** simulator/game_data/class_skills/tank/gnb.py lines 541-544: heart_of_light *)
Definition gnb_m41 : pmethod := mkMethod "heart_of_light" []
  [SRet (ECall "Skill" [] [("name", (EStr "Heart of Light")); ("is_GCD", (EBool false)); ("timing_spec", (ESelf "instant_timing_spec"))])].

(** simulator/game_data/class_skills/tank/gnb.py lines 547-550: heart_of_stone *)
Definition gnb_m42 : pmethod := mkMethod "heart_of_stone" []
  [SRet (ECall "Skill" [] [("name", (EStr "Heart of Stone")); ("is_GCD", (EBool false)); ("timing_spec", (ESelf "instant_timing_spec"))])].

(** simulator/game_data/class_skills/tank/gnb.py lines 553-558: heart_of_corundrum *)
Definition gnb_m43 : pmethod := mkMethod "heart_of_corundrum" []
  [SRet (ECall "Skill" [] [("name", (EStr "Heart of Corundrum")); ("is_GCD", (EBool false)); ("timing_spec", (ESelf "instant_timing_spec"))])].

(** simulator/game_data/class_skills/tank/gnb.py lines 18-20: __init__ after super().__init__ *)
Definition gnb_init : list stmt :=
  [SAttr "_job_class" (EStr "GNB")].

(** simulator/game_data/class_skills/tank/gnb.py lines 16-558: class GnbSkills; the decorated methods in the order of [dir] *)
Definition gnb_class : pclass := mkClass [] gnb_init
  [gnb_m0; gnb_m1; gnb_m2; gnb_m3; gnb_m4; gnb_m5; gnb_m6; gnb_m7; gnb_m8; gnb_m9; gnb_m10; gnb_m11; gnb_m12; gnb_m13; gnb_m14; gnb_m15; gnb_m16;
  gnb_m17; gnb_m18; gnb_m19; gnb_m20; gnb_m21; gnb_m22; gnb_m23; gnb_m24; gnb_m25; gnb_m26; gnb_m27; gnb_m28; gnb_m29; gnb_m30; gnb_m31; gnb_m32;
  gnb_m33; gnb_m34; gnb_m35; gnb_m36; gnb_m37; gnb_m38; gnb_m39; gnb_m40; gnb_m41; gnb_m42; gnb_m43]
  ["abdomen_tear"; "arms_length"; "aurora"; "auto"; "blasting_zone"; "bloodfest"; "bow_shock"; "brutal_shell"; "burst_strike"; "camouflage";
  "demon_slaughter"; "demon_slice"; "double_down"; "eye_gouge"; "fated_brand"; "fated_circle"; "gnashing_fang"; "great_nebula"; "heart_of_corundrum";
  "heart_of_light"; "heart_of_stone"; "hypervelocity"; "jugular_rip"; "keen_edge"; "lightning_shot"; "lion_heart"; "nebula"; "no_mercy";
  "noble_blood"; "provoke"; "rampart"; "reign_of_beasts"; "release_royal_guard"; "reprisal"; "rough_divide"; "royal_guard"; "savage_claw"; "shirk";
  "solid_barrel"; "sonic_break"; "superbolide"; "trajectory"; "wicked_talon"]
  []
  gnb_data.
