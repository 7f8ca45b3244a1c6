(** * MNK: the shipped skill definitions.

    Generated by tools/gen_game_data.py from
    simulator/game_data/class_skills/melee/mnk.py and simulator/game_data/class_skills/melee/mnk_data.py. *)

From Coq Require Import ZArith List String.
From Verif Require Import Py.
Import ListNotations.
Open Scope string_scope.
Open Scope Z_scope.

(** simulator/game_data/class_skills/melee/mnk_data.py lines 10-263, in dict-literal order *)
Definition mnk_data : data_table := [
  ("Demolish (dot)", [(90, [("potency", [(V655, (EInt 70))])])]);
  ("Opo-opo Form", [(90, [("allowlist", [(V655, (ETup [(EStr "Bootshine"); (EStr "Dragon Kick"); (EStr "Shadow of the Destroyer")]))])]); (100,
  [("allowlist", [(V70, (ETup [(EStr "Bootshine"); (EStr "Dragon Kick"); (EStr "Shadow of the Destroyer"); (EStr "Leaping Opo")]))])])]);
  ("Formless Fist", [(90, [("allowlist", [(V655, (ETup [(EStr "Bootshine"); (EStr "Dragon Kick"); (EStr "Shadow of the Destroyer"); (EStr
  "True Strike"); (EStr "Snap Punch"); (EStr "Twin Snakes"); (EStr "Demolish"); (EStr "Rockbreaker"); (EStr "Four-point Fury")]))])]); (100,
  [("allowlist", [(V70, (ETup [(EStr "Dragon Kick"); (EStr "Shadow of the Destroyer"); (EStr "Twin Snakes"); (EStr "Demolish"); (EStr "Rockbreaker");
  (EStr "Four-point Fury"); (EStr "Fire's Reply"); (EStr "Leaping Opo")]))])])]);
  ("Bootshine", [(90, [("potency", [(V655, (EInt 210)); (V70, (EInt 220))]); ("potency_fury", [(V70, (EInt 420))]); ("potency_leaden_fist", [(V655,
  (EInt 310))])])]);
  ("True Strike", [(90, [("potency", [(V655, (EInt 300)); (V70, (EInt 290)); (V701, (EInt 300))]); ("potency_fury", [(V70, (EInt 440)); (V701, (EInt
  500))])])]);
  ("Snap Punch", [(90, [("potency", [(V655, (EInt 310)); (V70, (EInt 360)); (V701, (EInt 330))]); ("potency_no_pos", [(V655, (EInt 250)); (V70, (EInt
  300)); (V701, (EInt 270))]); ("potency_fury", [(V70, (EInt 400)); (V701, (EInt 420))]); ("potency_fury_no_pos", [(V70, (EInt 460)); (V701, (EInt
  480))])])]);
  ("Twin Snakes", [(90, [("potency", [(V655, (EInt 280)); (V70, (EInt 380)); (V701, (EInt 420))])]); (100, [("potency", [(V70, (EInt 380)); (V701,
  (EInt 420))])])]);
  ("Demolish", [(90, [("damage_spec", [(V655, (EDict [((EConst "SimConsts.DEFAULT_CONDITION"), (ECall "DamageSpec" [] [("potency", (EInt 130))]));
  ((EStr "No Positional"), (ECall "DamageSpec" [] [("potency", (EInt 70))]))])); (V70, ENone)]); ("primary_application_delay", [(V655, (EInt 1600))]);
  ("potency", [(V655, (EInt 130)); (V70, (EInt 360)); (V701, (EInt 380))]); ("potency_no_pos", [(V655, (EInt 70)); (V70, (EInt 300)); (V701, (EInt
  320))])]); (100, [("damage_spec", [(V70, ENone)]); ("primary_application_delay", [(V70, (EInt 0))]); ("potency", [(V70, (EInt 400)); (V701, (EInt
  420))]); ("potency_no_pos", [(V70, (EInt 340)); (V701, (EInt 360))])])]);
  ("Rockbreaker", [(90, [("potency", [(V655, (EInt 130)); (V701, (EInt 150))])]); (100, [("potency", [(V70, (EInt 130)); (V701, (EInt 150))])])]);
  ("Four-point Fury", [(90, [("potency", [(V655, (EInt 120)); (V701, (EInt 140))])]); (100, [("potency", [(V70, (EInt 120)); (V701, (EInt 140))])])]);
  ("Dragon Kick", [(90, [("potency", [(V655, (EInt 320)); (V70, (EInt 280))])]); (100, [("potency", [(V70, (EInt 320))])])]);
  ("The Forbidden Chakra", [(90, [("potency", [(V655, (EInt 340)); (V70, (EInt 400))])]); (100, [("potency", [(V70, (EInt 400))])])]);
  ("Elixir Field", [(90, [("potency", [(V655, (EInt 600)); (V70, (EInt 800))])]); (100, [("potency", [(V70, (EInt 800))])])]);
  ("Celestial Revolution", [(90, [("potency", [(V655, (EInt 450)); (V701, (EInt 600))])]); (100, [("potency", [(V70, (EInt 450)); (V701, (EInt
  600))])])]);
  ("Riddle of Fire", [(90, [("damage_mult", [(V655, (EFlt 23 20))]); ("duration", [(V655, (ECall "int" [(EBin BMul (EFlt 518 25) (EInt 1000))]
  []))])]); (100, [("damage_mult", [(V70, (EFlt 23 20))]); ("duration", [(V70, (ECall "int" [(EBin BMul (EFlt 518 25) (EInt 1000))] []))])])]);
  ("Brotherhood", [(90, [("damage_mult", [(V655, (EFlt 21 20))]); ("duration", [(V655, (ECall "int" [(EBin BMul (EFlt 299 20) (EInt 1000))] []))])]);
  (100, [("damage_mult", [(V70, (EFlt 21 20))]); ("duration", [(V70, (ECall "int" [(EBin BMul (EFlt 399 20) (EInt 1000))] []))])])]);
  ("Riddle of Wind", [(90, [("duration", [(V655, (ECall "int" [(EBin BMul (EFlt 789 50) (EInt 1000))] []))])]); (100, [("duration", [(V70, (ECall
  "int" [(EBin BMul (EFlt 789 50) (EInt 1000))] []))])])]);
  ("Enlightenment", [(90, [("potency", [(V655, (EInt 170)); (V701, (EInt 200))])]); (100, [("potency", [(V70, (EInt 170)); (V701, (EInt 200))])])]);
  ("Six-sided Star", [(90, [("damage_spec", [(V655, (ECall "DamageSpec" [] [("potency", (EInt 130))])); (V70, (EDict [((EConst
  "SimConsts.DEFAULT_CONDITION"), (ECall "DamageSpec" [] [("potency", (EBin BAdd (EInt 710) (EBin BMul (EInt 5) (EInt 80))))])); ((EStr "10 Chakra"),
  (ECall "DamageSpec" [] [("potency", (EBin BAdd (EInt 710) (EBin BMul (EInt 10) (EInt 80))))])); ((EStr "9 Chakra"), (ECall "DamageSpec" []
  [("potency", (EBin BAdd (EInt 710) (EBin BMul (EInt 9) (EInt 80))))])); ((EStr "8 Chakra"), (ECall "DamageSpec" [] [("potency", (EBin BAdd (EInt
  710) (EBin BMul (EInt 8) (EInt 80))))])); ((EStr "7 Chakra"), (ECall "DamageSpec" [] [("potency", (EBin BAdd (EInt 710) (EBin BMul (EInt 7) (EInt
  80))))])); ((EStr "6 Chakra"), (ECall "DamageSpec" [] [("potency", (EBin BAdd (EInt 710) (EBin BMul (EInt 6) (EInt 80))))])); ((EStr "5 Chakra"),
  (ECall "DamageSpec" [] [("potency", (EBin BAdd (EInt 710) (EBin BMul (EInt 5) (EInt 80))))])); ((EStr "4 Chakra"), (ECall "DamageSpec" []
  [("potency", (EBin BAdd (EInt 710) (EBin BMul (EInt 4) (EInt 80))))])); ((EStr "3 Chakra"), (ECall "DamageSpec" [] [("potency", (EBin BAdd (EInt
  710) (EBin BMul (EInt 3) (EInt 80))))])); ((EStr "2 Chakra"), (ECall "DamageSpec" [] [("potency", (EBin BAdd (EInt 710) (EBin BMul (EInt 2) (EInt
  80))))])); ((EStr "1 Chakra"), (ECall "DamageSpec" [] [("potency", (EBin BAdd (EInt 710) (EBin BMul (EInt 1) (EInt 80))))])); ((EStr "0 Chakra"),
  (ECall "DamageSpec" [] [("potency", (EInt 710))]))]))])]); (100, [("damage_spec", [(V70, (EDict [((EConst "SimConsts.DEFAULT_CONDITION"), (ECall
  "DamageSpec" [] [("potency", (EBin BAdd (EInt 780) (EBin BMul (EInt 5) (EInt 80))))])); ((EStr "10 Chakra"), (ECall "DamageSpec" [] [("potency",
  (EBin BAdd (EInt 780) (EBin BMul (EInt 10) (EInt 80))))])); ((EStr "9 Chakra"), (ECall "DamageSpec" [] [("potency", (EBin BAdd (EInt 780) (EBin BMul
  (EInt 9) (EInt 80))))])); ((EStr "8 Chakra"), (ECall "DamageSpec" [] [("potency", (EBin BAdd (EInt 780) (EBin BMul (EInt 8) (EInt 80))))])); ((EStr
  "7 Chakra"), (ECall "DamageSpec" [] [("potency", (EBin BAdd (EInt 780) (EBin BMul (EInt 7) (EInt 80))))])); ((EStr "6 Chakra"), (ECall "DamageSpec"
  [] [("potency", (EBin BAdd (EInt 780) (EBin BMul (EInt 6) (EInt 80))))])); ((EStr "5 Chakra"), (ECall "DamageSpec" [] [("potency", (EBin BAdd (EInt
  780) (EBin BMul (EInt 5) (EInt 80))))])); ((EStr "4 Chakra"), (ECall "DamageSpec" [] [("potency", (EBin BAdd (EInt 780) (EBin BMul (EInt 4) (EInt
  80))))])); ((EStr "3 Chakra"), (ECall "DamageSpec" [] [("potency", (EBin BAdd (EInt 780) (EBin BMul (EInt 3) (EInt 80))))])); ((EStr "2 Chakra"),
  (ECall "DamageSpec" [] [("potency", (EBin BAdd (EInt 780) (EBin BMul (EInt 2) (EInt 80))))])); ((EStr "1 Chakra"), (ECall "DamageSpec" []
  [("potency", (EBin BAdd (EInt 780) (EBin BMul (EInt 1) (EInt 80))))])); ((EStr "0 Chakra"), (ECall "DamageSpec" [] [("potency", (EInt
  780))]))]))])])]);
  ("Shadow of the Destroyer", [(90, [("potency", [(V655, (EInt 110)); (V701, (EInt 120))])]); (100, [("potency", [(V70, (EInt 110)); (V701, (EInt
  120))])])]);
  ("Rising Phoenix", [(90, [("potency", [(V655, (EInt 700)); (V70, (EInt 900))])]); (100, [("potency", [(V70, (EInt 900))])])]);
  ("Phantom Rush", [(90, [("potency", [(V655, (EInt 1150)); (V70, (EInt 1300)); (V705, (EInt 1400))])]); (100, [("potency", [(V70, (EInt 1400));
  (V705, (EInt 1500))])])]);
  ("Leaping Opo", [(100, [("potency", [(V70, (EInt 260))]); ("potency_fury", [(V70, (EInt 460))])])]);
  ("Rising Raptor", [(100, [("potency", [(V70, (EInt 330)); (V701, (EInt 340))]); ("potency_fury", [(V70, (EInt 480)); (V701, (EInt 540))])])]);
  ("Pouncing Coeurl", [(100, [("potency", [(V70, (EInt 400)); (V701, (EInt 370))]); ("min_potency", [(V70, (EInt 340)); (V701, (EInt 310))]);
  ("potency_fury", [(V70, (EInt 500)); (V701, (EInt 520))]); ("min_potency_fury", [(V70, (EInt 440)); (V701, (EInt 460))]); ("potency_no_pos", [(V70,
  (EInt 340)); (V701, (EInt 310))]); ("potency_no_pos_fury", [(V70, (EInt 440)); (V701, (EInt 460))])])]);
  ("Elixir Burst", [(100, [("potency", [(V70, (EInt 900))])])]);
  ("Wind's Reply", [(100, [("potency", [(V70, (EInt 800)); (V705, (EInt 900))])])]);
  ("Fire's Reply", [(100, [("potency", [(V70, (EInt 1100)); (V705, (EInt 1200))])])]);
  ("Raptor's Fury", [(90, [("num_uses", [(V70, (EInt 2)); (V701, (EInt 1))]); ("allowlist", [(V70, (ETup [(EStr "Rising Raptor"); (EStr
  "True Strike")]))])]); (100, [("num_uses", [(V70, (EInt 2)); (V701, (EInt 1))]); ("allowlist", [(V70, (ETup [(EStr "Rising Raptor"); (EStr
  "True Strike")]))])])]);
  ("Coeurl's Fury", [(90, [("num_uses", [(V70, (EInt 3)); (V701, (EInt 2))]); ("allowlist", [(V70, (ETup [(EStr "Pouncing Coeurl"); (EStr
  "Snap Punch")]))])]); (100, [("num_uses", [(V70, (EInt 3)); (V701, (EInt 2))]); ("allowlist", [(V70, (ETup [(EStr "Pouncing Coeurl"); (EStr
  "Snap Punch")]))])])]);
  ("Opo-opo's Fury", [(90, [("num_uses", [(V70, (EInt 1))]); ("allowlist", [(V70, (ETup [(EStr "Leaping Opo"); (EStr "Bootshine")]))])]); (100,
  [("num_uses", [(V70, (EInt 1))]); ("allowlist", [(V70, (ETup [(EStr "Leaping Opo"); (EStr "Bootshine")]))])])])].

(** simulator/game_data/class_skills/melee/mnk.py lines 28-41: __get_disciplined_fist_follow_up *)
Definition mnk_m0 : pmethod := mkMethod "__get_disciplined_fist_follow_up" []
  [SIf (EVer OGe V70) [SRet ENone] []; SAsg "name" (EStr "_Disciplined Fist buff"); SRet (ECall "FollowUp" [] [("skill", (ECall "Skill" [] [("name",
  (EVar "name")); ("is_GCD", (EBool false)); ("buff_spec", (ECall "StatusEffectSpec" [] [("damage_mult", (EFlt 23 20)); ("duration", (ECall "int"
  [(EBin BMul (EFlt 1497 100) (EInt 1000))] []))]))])); ("delay_after_parent_application", (EInt 0))])].

(** simulator/game_data/class_skills/melee/mnk.py lines 43-59: __get_leaden_fist_follow_up *)
Definition mnk_m1 : pmethod := mkMethod "__get_leaden_fist_follow_up" []
  [SIf (EVer OGe V70) [SRet ENone] []; SAsg "name" (EStr "Leaden Fist"); SRet (ECall "FollowUp" [] [("skill", (ECall "Skill" [] [("name", (EVar
  "name")); ("is_GCD", (EBool false)); ("buff_spec", (ECall "StatusEffectSpec" [] [("add_to_skill_modifier_condition", (EBool true)); ("num_uses",
  (EInt 1)); ("duration", (EBin BMul (EInt 30) (EInt 1000))); ("skill_allowlist", (ETup [(EStr "Bootshine")]))]))]));
  ("delay_after_parent_application", (EInt 0))])].

(** simulator/game_data/class_skills/melee/mnk.py lines 62-71: auto *)
Definition mnk_m2 : pmethod := mkMethod "auto" []
  [SAsg "name" (EStr "Auto"); SRet (ECall "Skill" [] [("name", (EVar "name")); ("is_GCD", (EBool false)); ("timing_spec", (ESelf "auto_timing_spec"));
  ("damage_spec", (ECall "DamageSpec" [] [("potency", (EInt 90)); ("damage_class", (EConst "DamageClass.AUTO")); ("trait_damage_mult_override", (EInt
  1))]))])].

(** simulator/game_data/class_skills/melee/mnk.py lines 74-112: twin_snakes *)
Definition mnk_m3 : pmethod := mkMethod "twin_snakes" []
  [SAsg "raptor_fury_follow_up" (EIf (EVer OGe V70) (ECall "FollowUp" [] [("skill", (ECall "Skill" [] [("name", (EStr "Raptor's Fury")); ("buff_spec",
  (ECall "StatusEffectSpec" [] [("num_uses", (EData (EStr "Raptor's Fury") (EStr "num_uses"))); ("duration", (EConst "math.inf"));
  ("add_to_skill_modifier_condition", (EBool true)); ("skill_allowlist", (EData (EStr "Raptor's Fury") (EStr "allowlist")))]))]));
  ("delay_after_parent_application", (EInt 0))]) ENone); SAsg "name" (EStr "Twin Snakes"); SRet (ECall "Skill" [] [("name", (EVar "name")); ("is_GCD",
  (EBool true)); ("damage_spec", (ECall "DamageSpec" [] [("potency", (EPot (EVar "name")))])); ("timing_spec", (ECall "TimingSpec" []
  [("base_cast_time", (EInt 0)); ("animation_lock", (EInt 650)); ("application_delay", (EInt 840)); ("gcd_base_recast_time", (EInt 2000))]));
  ("follow_up_skills", (EIf (EVer OGe V70) (ETup [(EVar "raptor_fury_follow_up")]) (ETup [(EMeth "__get_disciplined_fist_follow_up" [] [])])))])].

(** simulator/game_data/class_skills/melee/mnk.py lines 114-129: __get_opo_opo_form_follow_up *)
Definition mnk_m4 : pmethod := mkMethod "__get_opo_opo_form_follow_up" []
  [SAsg "name" (EStr "Opo-opo Form"); SRet (ECall "FollowUp" [] [("skill", (ECall "Skill" [] [("name", (EVar "name")); ("is_GCD", (EBool false));
  ("buff_spec", (ECall "StatusEffectSpec" [] [("add_to_skill_modifier_condition", (EBool true)); ("num_uses", (EInt 1)); ("max_num_uses", (EInt 3));
  ("duration", (EBin BMul (EInt 30) (EInt 1000))); ("skill_allowlist", (EData (EVar "name") (EStr "allowlist")))]))]));
  ("delay_after_parent_application", (EInt 0))])].

(** simulator/game_data/class_skills/melee/mnk.py lines 132-217: demolish *)
Definition mnk_m5 : pmethod := mkMethod "demolish" []
  [SAsg "name" (EStr "Demolish"); SAsg "demolish_follow_up" (EIf (EVer OGe V70) ENone (ECall "FollowUp" [] [("skill", (ECall "Skill" [] [("name",
  (EStr "Demolish (dot)")); ("is_GCD", (EBool false)); ("damage_spec", (ECall "DamageSpec" [] [("potency", (EPot (EStr "Demolish (dot)")));
  ("damage_class", (EConst "DamageClass.PHYSICAL_DOT"))]))])); ("delay_after_parent_application", (EInt 0)); ("dot_duration", (EBin BMul (EInt 18)
  (EInt 1000))); ("snapshot_buffs_with_parent", (EBool true)); ("snapshot_debuffs_with_parent", (EBool true))])); SAsg "coeurl_fury_follow_up" (EIf
  (EVer OGe V70) (ECall "FollowUp" [] [("skill", (ECall "Skill" [] [("name", (EStr "Coeurl's Fury")); ("buff_spec", (ECall "StatusEffectSpec" []
  [("num_uses", (EData (EStr "Coeurl's Fury") (EStr "num_uses"))); ("duration", (EConst "math.inf")); ("add_to_skill_modifier_condition", (EBool
  true)); ("skill_allowlist", (EData (EStr "Coeurl's Fury") (EStr "allowlist")))]))])); ("delay_after_parent_application", (EInt 0))]) ENone); SAsg
  "demolish_damage_follow_up" (EIf (EVer OGe V70) (ECall "FollowUp" [] [("skill", (ECall "Skill" [] [("name", (EVar "name")); ("damage_spec", (EDict
  [((EConst "SimConsts.DEFAULT_CONDITION"), (ECall "DamageSpec" [] [("potency", (EPot (EVar "name")))])); ((EStr "No Positional"), (ECall "DamageSpec"
  [] [("potency", (EPotNP (EVar "name")))]))]))])); ("delay_after_parent_application", (EInt 1600))]) ENone); SAsg "opo_opo_form_follow_up" (EMeth
  "__get_opo_opo_form_follow_up" [] []); SRet (ECall "Skill" [] [("name", (EVar "name")); ("is_GCD", (EBool true)); ("damage_spec", (EData (EVar
  "name") (EStr "damage_spec"))); ("timing_spec", (ECall "TimingSpec" [] [("base_cast_time", (EInt 0)); ("animation_lock", (EInt 650));
  ("application_delay", (EData (EVar "name") (EStr "primary_application_delay"))); ("gcd_base_recast_time", (EInt 2000))])); ("follow_up_skills", (EIf
  (EVer OGe V70) (ETup [(EVar "demolish_damage_follow_up"); (EVar "opo_opo_form_follow_up"); (EVar "coeurl_fury_follow_up")]) (ETup [(EVar
  "demolish_follow_up"); (EVar "opo_opo_form_follow_up")])))])].

(** simulator/game_data/class_skills/melee/mnk.py lines 220-273: dragon_kick *)
Definition mnk_m6 : pmethod := mkMethod "dragon_kick" []
  [SAsg "name" (EStr "Dragon Kick"); SAsg "opo_opo_fury_follow_up" (EIf (EVer OGe V70) (ECall "FollowUp" [] [("skill", (ECall "Skill" [] [("name",
  (EStr "Opo-opo's Fury")); ("buff_spec", (ECall "StatusEffectSpec" [] [("num_uses", (EData (EStr "Opo-opo's Fury") (EStr "num_uses"))); ("duration",
  (EConst "math.inf")); ("add_to_skill_modifier_condition", (EBool true)); ("skill_allowlist", (EData (EStr "Opo-opo's Fury") (EStr
  "allowlist")))]))])); ("delay_after_parent_application", (EInt 0))]) ENone); SIf (EVer OEq V655) [SAsg "leaden_fist_follow_up" (EMeth
  "__get_leaden_fist_follow_up" [] []); SAsg "dragon_follow_up" (EDict [((EConst "SimConsts.DEFAULT_CONDITION"), (ECall "tuple" [] [])); ((EStr
  "Opo-opo Form"), (ETup [(EVar "leaden_fist_follow_up")])); ((EStr "Formless Fist"), (ETup [(EVar "leaden_fist_follow_up")])); ((EStr
  "Formless Fist, Opo-opo Form"), (ETup [(EVar "leaden_fist_follow_up")]))])] [SIf (EVer OEq V70) [SAsg "dragon_follow_up" (ETup [(EVar
  "opo_opo_fury_follow_up")])] [SAsg "dragon_follow_up" (EDict [((EConst "SimConsts.DEFAULT_CONDITION"), (ECall "tuple" [] [])); ((EStr
  "Opo-opo Form"), (ETup [(EVar "opo_opo_fury_follow_up")])); ((EStr "Formless Fist"), (ETup [(EVar "opo_opo_fury_follow_up")])); ((EStr
  "Formless Fist, Opo-opo Form"), (ETup [(EVar "opo_opo_fury_follow_up")]))])]]; SRet (ECall "Skill" [] [("name", (EVar "name")); ("is_GCD", (EBool
  true)); ("damage_spec", (ECall "DamageSpec" [] [("potency", (EPot (EVar "name")))])); ("timing_spec", (ECall "TimingSpec" [] [("base_cast_time",
  (EInt 0)); ("animation_lock", (EInt 650)); ("application_delay", (EInt 1290)); ("gcd_base_recast_time", (EInt 2000))])); ("follow_up_skills", (EVar
  "dragon_follow_up"))])].

(** simulator/game_data/class_skills/melee/mnk.py lines 276-290: formless_fist *)
Definition mnk_m7 : pmethod := mkMethod "formless_fist" []
  [SAsg "name" (EStr "Formless Fist"); SRet (ECall "Skill" [] [("name", (EVar "name")); ("is_GCD", (EBool false)); ("timing_spec", (ECall "TimingSpec"
  [] [("base_cast_time", (EInt 0)); ("animation_lock", (EInt 0)); ("application_delay", (EInt 0))])); ("buff_spec", (ECall "StatusEffectSpec" []
  [("add_to_skill_modifier_condition", (EBool true)); ("num_uses", (EInt 1)); ("duration", (EBin BMul (EInt 30) (EInt 1000))); ("skill_allowlist",
  (EData (EVar "name") (EStr "allowlist")))]))])].

(** simulator/game_data/class_skills/melee/mnk.py lines 292-307: __get_formless_fist_follow_up *)
Definition mnk_m8 : pmethod := mkMethod "__get_formless_fist_follow_up" []
  [SAsg "name" (EStr "Formless Fist"); SRet (ECall "FollowUp" [] [("skill", (ECall "Skill" [] [("name", (EVar "name")); ("is_GCD", (EBool false));
  ("buff_spec", (ECall "StatusEffectSpec" [] [("add_to_skill_modifier_condition", (EBool true)); ("num_uses", (EInt 1)); ("duration", (EBin BMul (EInt
  30) (EInt 1000))); ("skill_allowlist", (EData (EVar "name") (EStr "allowlist")))]))])); ("delay_after_parent_application", (EInt 0));
  ("primary_target_only", (EBool true))])].

(** simulator/game_data/class_skills/melee/mnk.py lines 310-399: bootshine *)
Definition mnk_m9 : pmethod := mkMethod "bootshine" []
  [SIf (ELev OGe K92) [SRet ENone] []; SAsg "name" (EStr "Bootshine"); SRet (ECall "Skill" [] [("name", (EVar "name")); ("is_GCD", (EBool true));
  ("damage_spec", (EIf (EVer OEq V655) (EDict [((EConst "SimConsts.DEFAULT_CONDITION"), (ECall "DamageSpec" [] [("potency", (EPot (EVar "name")))]));
  ((EStr "Leaden Fist"), (ECall "DamageSpec" [] [("potency", (EData (EVar "name") (EStr "potency_leaden_fist")))])); ((EStr "Opo-opo Form"), (ECall
  "DamageSpec" [] [("potency", (EPot (EVar "name"))); ("guaranteed_crit", (EConst "ForcedCritOrDH.FORCE_YES"))])); ((EStr
  "Leaden Fist, Opo-opo Form"), (ECall "DamageSpec" [] [("potency", (EData (EVar "name") (EStr "potency_leaden_fist"))); ("guaranteed_crit", (EConst
  "ForcedCritOrDH.FORCE_YES"))])); ((EStr "Formless Fist"), (ECall "DamageSpec" [] [("potency", (EPot (EVar "name"))); ("guaranteed_crit", (EConst
  "ForcedCritOrDH.FORCE_YES"))])); ((EStr "Formless Fist, Leaden Fist"), (ECall "DamageSpec" [] [("potency", (EData (EVar "name") (EStr
  "potency_leaden_fist"))); ("guaranteed_crit", (EConst "ForcedCritOrDH.FORCE_YES"))])); ((EStr "Formless Fist, Opo-opo Form"), (ECall "DamageSpec" []
  [("potency", (EPot (EVar "name"))); ("guaranteed_crit", (EConst "ForcedCritOrDH.FORCE_YES"))])); ((EStr "Formless Fist, Leaden Fist, Opo-opo Form"),
  (ECall "DamageSpec" [] [("potency", (EData (EVar "name") (EStr "potency_leaden_fist"))); ("guaranteed_crit", (EConst
  "ForcedCritOrDH.FORCE_YES"))]))]) (EDict [((EConst "SimConsts.DEFAULT_CONDITION"), (ECall "DamageSpec" [] [("potency", (EPot (EVar "name")))]));
  ((EStr "Opo-opo Form"), (ECall "DamageSpec" [] [("potency", (EPot (EVar "name"))); ("guaranteed_crit", (EConst "ForcedCritOrDH.FORCE_YES"))]));
  ((EStr "Formless Fist"), (ECall "DamageSpec" [] [("potency", (EPot (EVar "name"))); ("guaranteed_crit", (EConst "ForcedCritOrDH.FORCE_YES"))]));
  ((EStr "Formless Fist, Opo-opo Form"), (ECall "DamageSpec" [] [("potency", (EPot (EVar "name"))); ("guaranteed_crit", (EConst
  "ForcedCritOrDH.FORCE_YES"))])); ((EStr "Opo-opo's Fury"), (ECall "DamageSpec" [] [("potency", (EData (EVar "name") (EStr "potency_fury")))]));
  ((EStr "Opo-opo's Fury, Opo-opo Form"), (ECall "DamageSpec" [] [("potency", (EData (EVar "name") (EStr "potency_fury"))); ("guaranteed_crit",
  (EConst "ForcedCritOrDH.FORCE_YES"))])); ((EStr "Opo-opo's Fury, Formless Fist"), (ECall "DamageSpec" [] [("potency", (EData (EVar "name") (EStr
  "potency_fury"))); ("guaranteed_crit", (EConst "ForcedCritOrDH.FORCE_YES"))])); ((EStr "Formless Fist, Opo-opo Form, Opo-opo's Fury"), (ECall
  "DamageSpec" [] [("potency", (EData (EVar "name") (EStr "potency_fury"))); ("guaranteed_crit", (EConst "ForcedCritOrDH.FORCE_YES"))]))])));
  ("timing_spec", (ECall "TimingSpec" [] [("base_cast_time", (EInt 0)); ("animation_lock", (EInt 650)); ("application_delay", (EInt 1110));
  ("gcd_base_recast_time", (EInt 2000))]))])].

(** simulator/game_data/class_skills/melee/mnk.py lines 402-427: true_strike *)
Definition mnk_m10 : pmethod := mkMethod "true_strike" []
  [SIf (ELev OGe K92) [SRet ENone] []; SAsg "name" (EStr "True Strike"); SRet (ECall "Skill" [] [("name", (EVar "name")); ("is_GCD", (EBool true));
  ("damage_spec", (EIf (EVer OGe V70) (EDict [((EConst "SimConsts.DEFAULT_CONDITION"), (ECall "DamageSpec" [] [("potency", (EPot (EVar "name")))]));
  ((EStr "Raptor's Fury"), (ECall "DamageSpec" [] [("potency", (EData (EVar "name") (EStr "potency_fury")))]))]) (ECall "DamageSpec" [] [("potency",
  (EPot (EVar "name")))]))); ("timing_spec", (ECall "TimingSpec" [] [("base_cast_time", (EInt 0)); ("animation_lock", (EInt 650));
  ("application_delay", (EInt 800)); ("gcd_base_recast_time", (EInt 2000))]))])].

(** simulator/game_data/class_skills/melee/mnk.py lines 430-492: snap_punch *)
Definition mnk_m11 : pmethod := mkMethod "snap_punch" []
  [SIf (ELev OGe K92) [SRet ENone] []; SAsg "name" (EStr "Snap Punch"); SRet (ECall "Skill" [] [("name", (EVar "name")); ("is_GCD", (EBool true));
  ("damage_spec", (EIf (EVer OGe V70) (EDict [((EConst "SimConsts.DEFAULT_CONDITION"), (ECall "DamageSpec" [] [("potency", (EPot (EVar "name")))]));
  ((EStr "No Positional"), (ECall "DamageSpec" [] [("potency", (EPotNP (EVar "name")))])); ((EStr "Formless Fist"), (ECall "DamageSpec" []
  [("potency", (EPot (EVar "name")))])); ((EStr "Formless Fist, No Positional"), (ECall "DamageSpec" [] [("potency", (EPotNP (EVar "name")))]));
  ((EStr "Coeurl's Fury"), (ECall "DamageSpec" [] [("potency", (EData (EVar "name") (EStr "potency_fury")))])); ((EStr
  "Coeurl's Fury, No Positional"), (ECall "DamageSpec" [] [("potency", (EData (EVar "name") (EStr "potency_fury_no_pos")))])); ((EStr
  "Coeurl's Fury, Formless Fist"), (ECall "DamageSpec" [] [("potency", (EData (EVar "name") (EStr "potency_fury")))])); ((EStr
  "Coeurl's Fury, Formless Fist, No Positional"), (ECall "DamageSpec" [] [("potency", (EData (EVar "name") (EStr "potency_fury_no_pos")))]))]) (EDict
  [((EConst "SimConsts.DEFAULT_CONDITION"), (ECall "DamageSpec" [] [("potency", (EPot (EVar "name")))])); ((EStr "No Positional"), (ECall "DamageSpec"
  [] [("potency", (EPotNP (EVar "name")))])); ((EStr "Formless Fist"), (ECall "DamageSpec" [] [("potency", (EPot (EVar "name")))])); ((EStr
  "Formless Fist, No Positional"), (ECall "DamageSpec" [] [("potency", (EPotNP (EVar "name")))]))]))); ("timing_spec", (ECall "TimingSpec" []
  [("base_cast_time", (EInt 0)); ("animation_lock", (EInt 650)); ("application_delay", (EInt 760)); ("gcd_base_recast_time", (EInt 2000))]));
  ("follow_up_skills", (ETup [(EMeth "__get_opo_opo_form_follow_up" [] [])]))])].

(** simulator/game_data/class_skills/melee/mnk.py lines 495-509: rockbreaker *)
Definition mnk_m12 : pmethod := mkMethod "rockbreaker" []
  [SAsg "name" (EStr "Rockbreaker"); SRet (ECall "Skill" [] [("name", (EVar "name")); ("is_GCD", (EBool true)); ("damage_spec", (ECall "DamageSpec" []
  [("potency", (EPot (EVar "name")))])); ("timing_spec", (ECall "TimingSpec" [] [("base_cast_time", (EInt 0)); ("animation_lock", (EInt 650));
  ("application_delay", (EInt 940)); ("gcd_base_recast_time", (EInt 2000))])); ("follow_up_skills", (ETup [(EMeth "__get_opo_opo_form_follow_up" []
  [])])); ("has_aoe", (EBool true))])].

(** simulator/game_data/class_skills/melee/mnk.py lines 512-530: four_point_fury *)
Definition mnk_m13 : pmethod := mkMethod "four_point_fury" []
  [SAsg "name" (EStr "Four-point Fury"); SRet (ECall "Skill" [] [("name", (EVar "name")); ("is_GCD", (EBool true)); ("damage_spec", (ECall
  "DamageSpec" [] [("potency", (EPot (EVar "name")))])); ("timing_spec", (ECall "TimingSpec" [] [("base_cast_time", (EInt 0)); ("animation_lock",
  (EInt 650)); ("application_delay", (EInt 970)); ("gcd_base_recast_time", (EInt 2000))])); ("follow_up_skills", (EIf (EVer OGe V70) (ECall "tuple" []
  []) (ETup [(EMeth "__get_disciplined_fist_follow_up" [] [])]))); ("has_aoe", (EBool true))])].

(** simulator/game_data/class_skills/melee/mnk.py lines 533-542: the_forbidden_chakra *)
Definition mnk_m14 : pmethod := mkMethod "the_forbidden_chakra" []
  [SAsg "name" (EStr "The Forbidden Chakra"); SRet (ECall "Skill" [] [("name", (EVar "name")); ("is_GCD", (EBool false)); ("damage_spec", (ECall
  "DamageSpec" [] [("potency", (EPot (EVar "name")))])); ("timing_spec", (ECall "TimingSpec" [] [("base_cast_time", (EInt 0)); ("animation_lock",
  (EInt 650)); ("application_delay", (EInt 1420))]))])].

(** simulator/game_data/class_skills/melee/mnk.py lines 545-560: elixir_field *)
Definition mnk_m15 : pmethod := mkMethod "elixir_field" []
  [SAsg "name" (EStr "Elixir Field"); SRet (ECall "Skill" [] [("name", (EVar "name")); ("is_GCD", (EBool true)); ("damage_spec", (ECall "DamageSpec"
  [] [("potency", (EPot (EVar "name")))])); ("timing_spec", (ECall "TimingSpec" [] [("base_cast_time", (EInt 0)); ("animation_lock", (EInt 650));
  ("application_delay", (EInt 1070)); ("gcd_base_recast_time", (EInt 2000))])); ("follow_up_skills", (ETup [(EMeth "__get_formless_fist_follow_up" []
  [])])); ("has_aoe", (EBool true)); ("aoe_dropoff", (EFlt 7 10))])].

(** simulator/game_data/class_skills/melee/mnk.py lines 563-576: celestial_revolution *)
Definition mnk_m16 : pmethod := mkMethod "celestial_revolution" []
  [SAsg "name" (EStr "Celestial Revolution"); SRet (ECall "Skill" [] [("name", (EVar "name")); ("is_GCD", (EBool true)); ("damage_spec", (ECall
  "DamageSpec" [] [("potency", (EPot (EVar "name")))])); ("timing_spec", (ECall "TimingSpec" [] [("base_cast_time", (EInt 0)); ("animation_lock",
  (EInt 650)); ("application_delay", (EInt 890)); ("gcd_base_recast_time", (EInt 2000))])); ("follow_up_skills", (ETup [(EMeth
  "__get_formless_fist_follow_up" [] [])]))])].

(** simulator/game_data/class_skills/melee/mnk.py lines 579-590: riddle_of_fire *)
Definition mnk_m17 : pmethod := mkMethod "riddle_of_fire" []
  [SAsg "name" (EStr "Riddle of Fire"); SRet (ECall "Skill" [] [("name", (EVar "name")); ("is_GCD", (EBool false)); ("timing_spec", (ESelf
  "instant_timing_spec")); ("buff_spec", (ECall "StatusEffectSpec" [] [("damage_mult", (EData (EVar "name") (EStr "damage_mult"))); ("duration",
  (EData (EVar "name") (EStr "duration")))]))])].

(** simulator/game_data/class_skills/melee/mnk.py lines 593-607: brotherhood *)
Definition mnk_m18 : pmethod := mkMethod "brotherhood" []
  [SAsg "name" (EStr "Brotherhood"); SRet (ECall "Skill" [] [("name", (EVar "name")); ("is_GCD", (EBool false)); ("timing_spec", (ECall "TimingSpec"
  [] [("base_cast_time", (EInt 0)); ("animation_lock", (EInt 650)); ("application_delay", (EInt 800))])); ("buff_spec", (ECall "StatusEffectSpec" []
  [("damage_mult", (EData (EVar "name") (EStr "damage_mult"))); ("duration", (EData (EVar "name") (EStr "duration"))); ("is_party_effect", (EBool
  true))]))])].

(** simulator/game_data/class_skills/melee/mnk.py lines 610-621: riddle_of_wind *)
Definition mnk_m19 : pmethod := mkMethod "riddle_of_wind" []
  [SAsg "name" (EStr "Riddle of Wind"); SRet (ECall "Skill" [] [("name", (EVar "name")); ("is_GCD", (EBool false)); ("timing_spec", (ESelf
  "instant_timing_spec")); ("buff_spec", (ECall "StatusEffectSpec" [] [("auto_attack_delay_reduction", (EFlt 1 2)); ("duration", (EData (EVar "name")
  (EStr "duration")))]))])].

(** simulator/game_data/class_skills/melee/mnk.py lines 624-634: enlightenment *)
Definition mnk_m20 : pmethod := mkMethod "enlightenment" []
  [SAsg "name" (EStr "Enlightenment"); SRet (ECall "Skill" [] [("name", (EVar "name")); ("is_GCD", (EBool true)); ("damage_spec", (ECall "DamageSpec"
  [] [("potency", (EPot (EVar "name")))])); ("timing_spec", (ECall "TimingSpec" [] [("base_cast_time", (EInt 0)); ("animation_lock", (EInt 650));
  ("application_delay", (EInt 760))])); ("has_aoe", (EBool true))])].

(** simulator/game_data/class_skills/melee/mnk.py lines 637-649: six_sided_star *)
Definition mnk_m21 : pmethod := mkMethod "six_sided_star" []
  [SAsg "name" (EStr "Six-sided Star"); SRet (ECall "Skill" [] [("name", (EVar "name")); ("is_GCD", (EBool true)); ("damage_spec", (EData (EVar
  "name") (EStr "damage_spec"))); ("timing_spec", (ECall "TimingSpec" [] [("base_cast_time", (EInt 0)); ("animation_lock", (EInt 650));
  ("application_delay", (EInt 620)); ("gcd_base_recast_time", (EInt 4000))]))])].

(** simulator/game_data/class_skills/melee/mnk.py lines 652-681: shadow_of_the_destroyer *)
Definition mnk_m22 : pmethod := mkMethod "shadow_of_the_destroyer" []
  [SAsg "name" (EStr "Shadow of the Destroyer"); SRet (ECall "Skill" [] [("name", (EVar "name")); ("is_GCD", (EBool true)); ("damage_spec", (EDict
  [((EConst "SimConsts.DEFAULT_CONDITION"), (ECall "DamageSpec" [] [("potency", (EPot (EVar "name")))])); ((EStr "Opo-opo Form"), (ECall "DamageSpec"
  [] [("potency", (EPot (EVar "name"))); ("guaranteed_crit", (EConst "ForcedCritOrDH.FORCE_YES"))])); ((EStr "Formless Fist"), (ECall "DamageSpec" []
  [("potency", (EPot (EVar "name"))); ("guaranteed_crit", (EConst "ForcedCritOrDH.FORCE_YES"))])); ((EStr "Formless Fist, Opo-opo Form"), (ECall
  "DamageSpec" [] [("potency", (EPot (EVar "name"))); ("guaranteed_crit", (EConst "ForcedCritOrDH.FORCE_YES"))]))])); ("timing_spec", (ECall
  "TimingSpec" [] [("base_cast_time", (EInt 0)); ("animation_lock", (EInt 650)); ("application_delay", (EInt 400)); ("gcd_base_recast_time", (EInt
  2000))])); ("has_aoe", (EBool true))])].

(** simulator/game_data/class_skills/melee/mnk.py lines 684-699: rising_phoenix *)
Definition mnk_m23 : pmethod := mkMethod "rising_phoenix" []
  [SAsg "name" (EStr "Rising Phoenix"); SRet (ECall "Skill" [] [("name", (EVar "name")); ("is_GCD", (EBool true)); ("damage_spec", (ECall "DamageSpec"
  [] [("potency", (EPot (EVar "name")))])); ("timing_spec", (ECall "TimingSpec" [] [("base_cast_time", (EInt 0)); ("animation_lock", (EInt 650));
  ("application_delay", (EInt 760)); ("gcd_base_recast_time", (EInt 2000))])); ("follow_up_skills", (ETup [(EMeth "__get_formless_fist_follow_up" []
  [])])); ("has_aoe", (EBool true)); ("aoe_dropoff", (EFlt 7 10))])].

(** simulator/game_data/class_skills/melee/mnk.py lines 702-717: phantom_rush *)
Definition mnk_m24 : pmethod := mkMethod "phantom_rush" []
  [SAsg "name" (EStr "Phantom Rush"); SRet (ECall "Skill" [] [("name", (EVar "name")); ("is_GCD", (EBool true)); ("damage_spec", (ECall "DamageSpec"
  [] [("potency", (EPot (EVar "name")))])); ("timing_spec", (ECall "TimingSpec" [] [("base_cast_time", (EInt 0)); ("animation_lock", (EInt 650));
  ("application_delay", (EInt 400)); ("gcd_base_recast_time", (EInt 2000))])); ("follow_up_skills", (ETup [(EMeth "__get_formless_fist_follow_up" []
  [])])); ("has_aoe", (EBool true)); ("aoe_dropoff", (EFlt 1 2))])].

(** simulator/game_data/class_skills/melee/mnk.py lines 720-766: leaping_opo *)
Definition mnk_m25 : pmethod := mkMethod "leaping_opo" []
  [SIf (ELev OLt K92) [SRet ENone] []; SAsg "name" (EStr "Leaping Opo"); SRet (ECall "Skill" [] [("name", (EVar "name")); ("is_GCD", (EBool true));
  ("damage_spec", (EDict [((EConst "SimConsts.DEFAULT_CONDITION"), (ECall "DamageSpec" [] [("potency", (EPot (EVar "name")))])); ((EStr
  "Opo-opo Form"), (ECall "DamageSpec" [] [("potency", (EPot (EVar "name"))); ("guaranteed_crit", (EConst "ForcedCritOrDH.FORCE_YES"))])); ((EStr
  "Formless Fist"), (ECall "DamageSpec" [] [("potency", (EPot (EVar "name"))); ("guaranteed_crit", (EConst "ForcedCritOrDH.FORCE_YES"))])); ((EStr
  "Formless Fist, Opo-opo Form"), (ECall "DamageSpec" [] [("potency", (EPot (EVar "name"))); ("guaranteed_crit", (EConst
  "ForcedCritOrDH.FORCE_YES"))])); ((EStr "Opo-opo's Fury"), (ECall "DamageSpec" [] [("potency", (EData (EVar "name") (EStr "potency_fury")))]));
  ((EStr "Opo-opo's Fury, Opo-opo Form"), (ECall "DamageSpec" [] [("potency", (EData (EVar "name") (EStr "potency_fury"))); ("guaranteed_crit",
  (EConst "ForcedCritOrDH.FORCE_YES"))])); ((EStr "Formless Fist, Opo-opo's Fury"), (ECall "DamageSpec" [] [("potency", (EData (EVar "name") (EStr
  "potency_fury"))); ("guaranteed_crit", (EConst "ForcedCritOrDH.FORCE_YES"))])); ((EStr "Formless Fist, Opo-opo Form, Opo-opo's Fury"), (ECall
  "DamageSpec" [] [("potency", (EData (EVar "name") (EStr "potency_fury"))); ("guaranteed_crit", (EConst "ForcedCritOrDH.FORCE_YES"))]))]));
  ("timing_spec", (ECall "TimingSpec" [] [("base_cast_time", (EInt 0)); ("animation_lock", (EInt 650)); ("application_delay", (EInt 620));
  ("gcd_base_recast_time", (EInt 2000))]))])].

(** simulator/game_data/class_skills/melee/mnk.py lines 769-790: rising_raptor *)
Definition mnk_m26 : pmethod := mkMethod "rising_raptor" []
  [SIf (ELev OLt K92) [SRet ENone] []; SAsg "name" (EStr "Rising Raptor"); SRet (ECall "Skill" [] [("name", (EVar "name")); ("is_GCD", (EBool true));
  ("damage_spec", (EDict [((EConst "SimConsts.DEFAULT_CONDITION"), (ECall "DamageSpec" [] [("potency", (EPot (EVar "name")))])); ((EStr
  "Raptor's Fury"), (ECall "DamageSpec" [] [("potency", (EData (EVar "name") (EStr "potency_fury")))]))])); ("timing_spec", (ECall "TimingSpec" []
  [("base_cast_time", (EInt 0)); ("animation_lock", (EInt 650)); ("application_delay", (EInt 890)); ("gcd_base_recast_time", (EInt 2000))]))])].

(** simulator/game_data/class_skills/melee/mnk.py lines 793-835: pouncing_coeurl *)
Definition mnk_m27 : pmethod := mkMethod "pouncing_coeurl" []
  [SIf (ELev OLt K92) [SRet ENone] []; SAsg "name" (EStr "Pouncing Coeurl"); SRet (ECall "Skill" [] [("name", (EVar "name")); ("is_GCD", (EBool
  true)); ("damage_spec", (EDict [((EConst "SimConsts.DEFAULT_CONDITION"), (ECall "DamageSpec" [] [("potency", (EPot (EVar "name")));
  ("use_min_potency", (EData (EVar "name") (EStr "min_potency")))])); ((EStr "Coeurl's Fury"), (ECall "DamageSpec" [] [("potency", (EData (EVar
  "name") (EStr "potency_fury"))); ("use_min_potency", (EData (EVar "name") (EStr "min_potency_fury")))])); ((EStr "No Positional"), (ECall
  "DamageSpec" [] [("potency", (EData (EVar "name") (EStr "potency_no_pos"))); ("use_min_potency", (EData (EVar "name") (EStr "min_potency")))]));
  ((EStr "Coeurl's Fury, No Positional"), (ECall "DamageSpec" [] [("potency", (EData (EVar "name") (EStr "potency_no_pos_fury"))); ("use_min_potency",
  (EData (EVar "name") (EStr "min_potency_fury")))]))])); ("timing_spec", (ECall "TimingSpec" [] [("base_cast_time", (EInt 0)); ("animation_lock",
  (EInt 650)); ("application_delay", (EInt 1020)); ("gcd_base_recast_time", (EInt 2000))])); ("follow_up_skills", (ETup [(EMeth
  "__get_opo_opo_form_follow_up" [] [])]))])].

(** simulator/game_data/class_skills/melee/mnk.py lines 838-855: elixir_burst *)
Definition mnk_m28 : pmethod := mkMethod "elixir_burst" []
  [SIf (ELev OLt K92) [SRet ENone] []; SAsg "name" (EStr "Elixir Burst"); SRet (ECall "Skill" [] [("name", (EVar "name")); ("is_GCD", (EBool true));
  ("damage_spec", (ECall "DamageSpec" [] [("potency", (EPot (EVar "name")))])); ("timing_spec", (ECall "TimingSpec" [] [("base_cast_time", (EInt 0));
  ("animation_lock", (EInt 650)); ("application_delay", (EInt 1420)); ("gcd_base_recast_time", (EInt 2000))])); ("follow_up_skills", (ETup [(EMeth
  "__get_formless_fist_follow_up" [] [])])); ("has_aoe", (EBool true)); ("aoe_dropoff", (EFlt 7 10))])].

(** simulator/game_data/class_skills/melee/mnk.py lines 858-874: winds_reply *)
Definition mnk_m29 : pmethod := mkMethod "winds_reply" []
  [SIf (ELev OLt K96) [SRet ENone] []; SAsg "name" (EStr "Wind's Reply"); SRet (ECall "Skill" [] [("name", (EVar "name")); ("is_GCD", (EBool true));
  ("damage_spec", (ECall "DamageSpec" [] [("potency", (EPot (EVar "name")))])); ("timing_spec", (ECall "TimingSpec" [] [("base_cast_time", (EInt 0));
  ("animation_lock", (EInt 650)); ("application_delay", (EInt 1200)); ("gcd_base_recast_time", (EInt 2000))])); ("has_aoe", (EBool true));
  ("aoe_dropoff", (EFlt 1 2))])].

(** simulator/game_data/class_skills/melee/mnk.py lines 877-894: fires_reply *)
Definition mnk_m30 : pmethod := mkMethod "fires_reply" []
  [SIf (ELev OLt K100) [SRet ENone] []; SAsg "name" (EStr "Fire's Reply"); SRet (ECall "Skill" [] [("name", (EVar "name")); ("is_GCD", (EBool true));
  ("damage_spec", (ECall "DamageSpec" [] [("potency", (EPot (EVar "name")))])); ("timing_spec", (ECall "TimingSpec" [] [("base_cast_time", (EInt 0));
  ("animation_lock", (EInt 650)); ("application_delay", (EInt 1420)); ("gcd_base_recast_time", (EInt 2000))])); ("follow_up_skills", (ETup [(EMeth
  "__get_formless_fist_follow_up" [] [])])); ("has_aoe", (EBool true)); ("aoe_dropoff", (EFlt 1 2))])].

(** simulator/game_data/class_skills/melee/mnk.py lines 897-909: perfect_balance *)
Definition mnk_m31 : pmethod := mkMethod "perfect_balance" []
  [SAsg "name" (EStr "Perfect Balance"); SAsg "opo_opo_form_follow_up" (EMeth "__get_opo_opo_form_follow_up" [] []); SRet (ECall "Skill" [] [("name",
  (EVar "name")); ("is_GCD", (EBool false)); ("timing_spec", (ESelf "instant_timing_spec")); ("follow_up_skills", (ETup [(EVar
  "opo_opo_form_follow_up"); (EVar "opo_opo_form_follow_up"); (EVar "opo_opo_form_follow_up")]))])].

(** simulator/game_data/class_skills/melee/mnk.py lines 912-919: form_shift *)
Definition mnk_m32 : pmethod := mkMethod "form_shift" []
  [SAsg "name" (EStr "Form Shift"); SRet (ECall "Skill" [] [("name", (EVar "name")); ("is_GCD", (EBool false)); ("timing_spec", (ECall "TimingSpec" []
  [("base_cast_time", (EInt 0)); ("gcd_base_recast_time", (EInt 2000))])); ("follow_up_skills", (ETup [(EMeth "__get_formless_fist_follow_up" []
  [])]))])].

(** simulator/game_data/class_skills/melee/mnk.py lines 926-928: steeled_meditation *)
Definition mnk_m33 : pmethod := mkMethod "steeled_meditation" []
  [SAsg "name" (EStr "Steeled Meditation"); SRet (ECall "Skill" [] [("name", (EVar "name")); ("is_GCD", (EBool false)); ("timing_spec", (ESelf
  "instant_timing_spec"))])].

(** simulator/game_data/class_skills/melee/mnk.py lines 931-933: inspirited_meditation *)
Definition mnk_m34 : pmethod := mkMethod "inspirited_meditation" []
  [SAsg "name" (EStr "Inspirited Meditation"); SRet (ECall "Skill" [] [("name", (EVar "name")); ("is_GCD", (EBool false)); ("timing_spec", (ESelf
  "instant_timing_spec"))])].

(** simulator/game_data/class_skills/melee/mnk.py lines 936-938: forbidden_meditation *)
Definition mnk_m35 : pmethod := mkMethod "forbidden_meditation" []
  [SAsg "name" (EStr "Forbidden Meditation"); SRet (ECall "Skill" [] [("name", (EVar "name")); ("is_GCD", (EBool false)); ("timing_spec", (ESelf
  "instant_timing_spec"))])].

(** simulator/game_data/class_skills/melee/mnk.py lines 941-943: enlightened_meditation *)
Definition mnk_m36 : pmethod := mkMethod "enlightened_meditation" []
  [SAsg "name" (EStr "Enlightened Meditation"); SRet (ECall "Skill" [] [("name", (EVar "name")); ("is_GCD", (EBool false)); ("timing_spec", (ESelf
  "instant_timing_spec"))])].

(** simulator/game_data/class_skills/melee/mnk.py lines 946-948: true_north *)
Definition mnk_m37 : pmethod := mkMethod "true_north" []
  [SAsg "name" (EStr "True North"); SRet (ECall "Skill" [] [("name", (EVar "name")); ("is_GCD", (EBool false)); ("timing_spec", (ESelf
  "instant_timing_spec"))])].

(** simulator/game_data/class_skills/melee/mnk.py lines 951-953: meditation *)
Definition mnk_m38 : pmethod := mkMethod "meditation" []
  [SAsg "name" (EStr "Meditation"); SRet (ECall "Skill" [] [("name", (EVar "name")); ("is_GCD", (EBool false)); ("timing_spec", (ESelf
  "instant_timing_spec"))])].

(** simulator/game_data/class_skills/melee/mnk.py lines 956-958: thunderclap *)
Definition mnk_m39 : pmethod := mkMethod "thunderclap" []
  [SAsg "name" (EStr "Thunderclap"); SRet (ECall "Skill" [] [("name", (EVar "name")); ("is_GCD", (EBool false)); ("timing_spec", (ESelf
  "instant_timing_spec"))])].

(** simulator/game_data/class_skills/melee/mnk.py lines 24-26: __init__ after super().__init__ *)
Definition mnk_init : list stmt :=
  [SAttr "_job_class" (EStr "MNK")].

(** simulator/game_data/class_skills/melee/mnk.py lines 22-958: class MnkSkills; the decorated methods in the order of [dir] *)
Definition mnk_class : pclass := mkClass [] mnk_init
  [mnk_m0; mnk_m1; mnk_m2; mnk_m3; mnk_m4; mnk_m5; mnk_m6; mnk_m7; mnk_m8; mnk_m9; mnk_m10; mnk_m11; mnk_m12; mnk_m13; mnk_m14; mnk_m15; mnk_m16;
  mnk_m17; mnk_m18; mnk_m19; mnk_m20; mnk_m21; mnk_m22; mnk_m23; mnk_m24; mnk_m25; mnk_m26; mnk_m27; mnk_m28; mnk_m29; mnk_m30; mnk_m31; mnk_m32;
  mnk_m33; mnk_m34; mnk_m35; mnk_m36; mnk_m37; mnk_m38; mnk_m39]
  ["auto"; "bootshine"; "brotherhood"; "celestial_revolution"; "demolish"; "dragon_kick"; "elixir_burst"; "elixir_field"; "enlightened_meditation";
  "enlightenment"; "fires_reply"; "forbidden_meditation"; "form_shift"; "formless_fist"; "four_point_fury"; "inspirited_meditation"; "leaping_opo";
  "meditation"; "perfect_balance"; "phantom_rush"; "pouncing_coeurl"; "riddle_of_fire"; "riddle_of_wind"; "rising_phoenix"; "rising_raptor";
  "rockbreaker"; "shadow_of_the_destroyer"; "six_sided_star"; "snap_punch"; "steeled_meditation"; "the_forbidden_chakra"; "thunderclap"; "true_north";
  "true_strike"; "twin_snakes"; "winds_reply"]
  []
  mnk_data.
