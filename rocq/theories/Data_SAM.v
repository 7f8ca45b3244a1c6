(** * SAM: the shipped skill definitions.

    Generated by tools/gen_game_data.py from
    simulator/game_data/class_skills/melee/sam.py and simulator/game_data/class_skills/melee/sam_data.py. *)

From Coq Require Import ZArith List String.
From Verif Require Import Py.
Import ListNotations.
Open Scope string_scope.
Open Scope Z_scope.

(** simulator/game_data/class_skills/melee/sam_data.py lines 8-139, in dict-literal order *)
Definition sam_data : data_table := [
  ("Hakaze", [(90, [("potency", [(V655, (EInt 200))])])]);
  ("Gyofu", [(100, [("potency", [(V70, (EInt 240)); (V705, (EInt 230)); (V71, (EInt 240))])])]);
  ("Jinpu", [(90, [("potency", [(V655, (EInt 280))]); ("potency_no_combo", [(V655, (EInt 120))]); ("combo_actions", [(V655, (ETup [(EStr
  "Hakaze")]))])]); (100, [("potency", [(V70, (EInt 320)); (V705, (EInt 300))]); ("potency_no_combo", [(V70, (EInt 160)); (V705, (EInt 140))]);
  ("combo_actions", [(V70, (ETup [(EStr "Gyofu")]))])])]);
  ("Enpi", [(90, [("potency", [(V655, (EInt 100))]); ("potency_enhanced", [(V655, (EInt 260))])]); (100, [("potency", [(V70, (EInt 100))]);
  ("potency_enhanced", [(V70, (EInt 260))])])]);
  ("Shifu", [(90, [("potency", [(V655, (EInt 280))]); ("potency_no_combo", [(V655, (EInt 120))]); ("combo_actions", [(V655, (ETup [(EStr
  "Hakaze")]))])]); (100, [("potency", [(V70, (EInt 320)); (V705, (EInt 300))]); ("potency_no_combo", [(V70, (EInt 160)); (V705, (EInt 140))]);
  ("combo_actions", [(V70, (ETup [(EStr "Gyofu")]))])])]);
  ("Gekko", [(90, [("potency", [(V655, (EInt 380)); (V705, (EInt 370))]); ("potency_no_combo", [(V655, (EInt 170)); (V705, (EInt 160))]);
  ("potency_no_pos", [(V655, (EInt 330)); (V705, (EInt 320))]); ("potency_no_pos_no_combo", [(V655, (EInt 120)); (V705, (EInt 110))])]); (100,
  [("potency", [(V70, (EInt 440)); (V705, (EInt 420))]); ("potency_no_combo", [(V70, (EInt 230)); (V705, (EInt 210))]); ("potency_no_pos", [(V70,
  (EInt 390)); (V705, (EInt 370))]); ("potency_no_pos_no_combo", [(V70, (EInt 180)); (V705, (EInt 160))])])]);
  ("Higanbana (dot)", [(90, [("potency", [(V655, (EInt 45))])]); (100, [("potency", [(V70, (EInt 50))])])]);
  ("Higanbana", [(90, [("potency", [(V655, (EInt 200))])]); (100, [("potency", [(V70, (EInt 200))])])]);
  ("Tenka Goken", [(90, [("potency", [(V655, (EInt 300))])]); (100, [("potency", [(V70, (EInt 300))])])]);
  ("Midare Setsugekka", [(90, [("potency", [(V655, (EInt 640)); (V705, (EInt 620))])]); (100, [("potency", [(V70, (EInt 700)); (V705, (EInt
  640))])])]);
  ("Kaeshi: Higanbana", [(90, [("potency", [(V655, (EInt 200))])])]);
  ("Kaeshi: Goken", [(90, [("potency", [(V655, (EInt 300))])]); (100, [("potency", [(V70, (EInt 300))])])]);
  ("Kaeshi: Setsugekka", [(90, [("potency", [(V655, (EInt 640)); (V705, (EInt 620))])]); (100, [("potency", [(V70, (EInt 700)); (V705, (EInt
  640))])])]);
  ("Mangetsu", [(90, [("potency", [(V655, (EInt 120))]); ("potency_no_combo", [(V655, (EInt 100))])]); (100, [("potency", [(V70, (EInt 120))]);
  ("potency_no_combo", [(V70, (EInt 100))])])]);
  ("Kasha", [(90, [("potency", [(V655, (EInt 380)); (V705, (EInt 370))]); ("potency_no_combo", [(V655, (EInt 170)); (V705, (EInt 160))]);
  ("potency_no_pos", [(V655, (EInt 330)); (V705, (EInt 320))]); ("potency_no_pos_no_combo", [(V655, (EInt 120)); (V705, (EInt 110))])]); (100,
  [("potency", [(V70, (EInt 440)); (V705, (EInt 420))]); ("potency_no_combo", [(V70, (EInt 230)); (V705, (EInt 210))]); ("potency_no_pos", [(V70,
  (EInt 390)); (V705, (EInt 370))]); ("potency_no_pos_no_combo", [(V70, (EInt 180)); (V705, (EInt 160))])])]);
  ("Oka", [(90, [("potency", [(V655, (EInt 120))]); ("potency_no_combo", [(V655, (EInt 100))])]); (100, [("potency", [(V70, (EInt 120))]);
  ("potency_no_combo", [(V70, (EInt 100))])])]);
  ("Yukikaze", [(90, [("potency", [(V655, (EInt 300)); (V705, (EInt 290))]); ("potency_no_combo", [(V655, (EInt 120)); (V705, (EInt 110))]);
  ("combo_actions", [(V655, (ETup [(EStr "Hakaze")]))])]); (100, [("potency", [(V70, (EInt 360)); (V705, (EInt 340))]); ("potency_no_combo", [(V70,
  (EInt 180)); (V705, (EInt 160))]); ("combo_actions", [(V70, (ETup [(EStr "Gyofu")]))])])]);
  ("Hissatsu: Shinten", [(90, [("potency", [(V655, (EInt 250))])]); (100, [("potency", [(V70, (EInt 250))])])]);
  ("Hissatsu: Gyoten", [(90, [("potency", [(V655, (EInt 100))])]); (100, [("potency", [(V70, (EInt 100))])])]);
  ("Hissatsu: Yaten", [(90, [("potency", [(V655, (EInt 100))])]); (100, [("potency", [(V70, (EInt 100))])])]);
  ("Hissatsu: Kyuten", [(90, [("potency", [(V655, (EInt 120))])]); (100, [("potency", [(V70, (EInt 120))])])]);
  ("Hissatsu: Guren", [(90, [("potency", [(V655, (EInt 500))])]); (100, [("potency", [(V70, (EInt 500))])])]);
  ("Hissatsu: Senei", [(90, [("potency", [(V655, (EInt 860)); (V705, (EInt 800))])]); (100, [("potency", [(V70, (EInt 860)); (V705, (EInt 800))])])]);
  ("Shoha", [(90, [("potency", [(V655, (EInt 560))])]); (100, [("potency", [(V70, (EInt 640))])])]);
  ("Shoha II", [(90, [("potency", [(V655, (EInt 200))])])]);
  ("Fuko", [(90, [("potency", [(V655, (EInt 100))])]); (100, [("potency", [(V70, (EInt 100))])])]);
  ("Ogi Namikiri", [(90, [("potency", [(V655, (EInt 860))])]); (100, [("potency", [(V70, (EInt 900))])])]);
  ("Kaeshi: Namikiri", [(90, [("potency", [(V655, (EInt 860))])]); (100, [("potency", [(V70, (EInt 900))])])]);
  ("Zanshin", [(100, [("potency", [(V70, (EInt 900)); (V705, (EInt 820)); (V71, (EInt 900))])])]);
  ("Tendo Goken", [(100, [("potency", [(V70, (EInt 420)); (V705, (EInt 410))])])]);
  ("Tendo Setsugekka", [(100, [("potency", [(V70, (EInt 1020))]); ("gcd_base_recast_time", [(V70, (EInt 3200)); (V701, (EInt 2500))])])]);
  ("Tendo Kaeshi Goken", [(100, [("potency", [(V70, (EInt 420)); (V705, (EInt 410))])])]);
  ("Tendo Kaeshi Setsugekka", [(100, [("potency", [(V70, (EInt 1020))]); ("gcd_base_recast_time", [(V70, (EInt 3200)); (V701, (EInt 2500))])])])].

(** simulator/game_data/class_skills/melee/sam.py lines 23-32: __get_fugetsu_follow_up *)
Definition sam_m0 : pmethod := mkMethod "__get_fugetsu_follow_up" []
  [SAsg "name" (EStr "Fugetsu"); SRet (ECall "FollowUp" [] [("skill", (ECall "Skill" [] [("name", (EVar "name")); ("is_GCD", (EBool false));
  ("buff_spec", (ECall "StatusEffectSpec" [] [("damage_mult", (EFlt 113 100)); ("duration", (EInt 40000))]))])); ("delay_after_parent_application",
  (EInt 650))])].

(** simulator/game_data/class_skills/melee/sam.py lines 34-47: __get_fuka_follow_up *)
Definition sam_m1 : pmethod := mkMethod "__get_fuka_follow_up" []
  [SAsg "name" (EStr "Fuka"); SRet (ECall "FollowUp" [] [("skill", (ECall "Skill" [] [("name", (EVar "name")); ("is_GCD", (EBool false));
  ("buff_spec", (ECall "StatusEffectSpec" [] [("haste_time_reduction", (EFlt 13 100)); ("auto_attack_delay_reduction", (EFlt 13 100)); ("duration",
  (EInt 40000))]))])); ("delay_after_parent_application", (EInt 0))])].

(** simulator/game_data/class_skills/melee/sam.py lines 50-59: auto *)
Definition sam_m2 : pmethod := mkMethod "auto" []
  [SAsg "name" (EStr "Auto"); SRet (ECall "Skill" [] [("name", (EVar "name")); ("is_GCD", (EBool false)); ("timing_spec", (ESelf "auto_timing_spec"));
  ("damage_spec", (ECall "DamageSpec" [] [("potency", (EInt 90)); ("damage_class", (EConst "DamageClass.AUTO")); ("trait_damage_mult_override", (EInt
  1))]))])].

(** simulator/game_data/class_skills/melee/sam.py lines 62-74: hakaze *)
Definition sam_m3 : pmethod := mkMethod "hakaze" []
  [SIf (ELev OGe K92) [SRet ENone] []; SAsg "name" (EStr "Hakaze"); SRet (ECall "Skill" [] [("name", (EVar "name")); ("is_GCD", (EBool true));
  ("combo_spec", (ETup [(ECall "ComboSpec" [] [])])); ("damage_spec", (ECall "DamageSpec" [] [("potency", (EPot (EVar "name")))])); ("timing_spec",
  (ECall "TimingSpec" [] [("base_cast_time", (EInt 0)); ("animation_lock", (EInt 650)); ("application_delay", (EInt 620))]))])].

(** simulator/game_data/class_skills/melee/sam.py lines 77-89: gyofu *)
Definition sam_m4 : pmethod := mkMethod "gyofu" []
  [SIf (ELev OLt K92) [SRet ENone] []; SAsg "name" (EStr "Gyofu"); SRet (ECall "Skill" [] [("name", (EVar "name")); ("is_GCD", (EBool true));
  ("combo_spec", (ETup [(ECall "ComboSpec" [] [])])); ("damage_spec", (ECall "DamageSpec" [] [("potency", (EPot (EVar "name")))])); ("timing_spec",
  (ECall "TimingSpec" [] [("base_cast_time", (EInt 0)); ("animation_lock", (EInt 650)); ("application_delay", (EInt 850))]))])].

(** simulator/game_data/class_skills/melee/sam.py lines 92-148: jinpu *)
Definition sam_m5 : pmethod := mkMethod "jinpu" []
  [SAsg "name" (EStr "Jinpu"); SAsg "jinpu_follow_up" (ECall "FollowUp" [] [("skill", (ECall "Skill" [] [("name", (EVar "name")); ("damage_spec",
  (ECall "DamageSpec" [] [("potency", (EPot (EVar "name")))]))])); ("delay_after_parent_application", (EInt 620))]); SAsg "jinpu_no_combo_follow_up"
  (ECall "FollowUp" [] [("skill", (ECall "Skill" [] [("name", (EVar "name")); ("damage_spec", (ECall "DamageSpec" [] [("potency", (EPotNC (EVar
  "name")))]))])); ("delay_after_parent_application", (EInt 620))]); SRet (ECall "Skill" [] [("name", (EVar "name")); ("is_GCD", (EBool true));
  ("ignored_conditions_for_bonus_potency", (ETup [(EStr "Meikyo Shisui")])); ("combo_spec", (EDict [((EConst "SimConsts.DEFAULT_CONDITION"), (ETup
  [(ECall "ComboSpec" [] [("combo_actions", (EData (EVar "name") (EStr "combo_actions")))])])); ((EStr "No Combo"), (ETup [(ECall "ComboSpec" []
  [("combo_actions", (EData (EVar "name") (EStr "combo_actions")))])])); ((EStr "Meikyo Shisui"), (ETup [(ECall "ComboSpec" [] [("combo_auto_succeed",
  (EBool true)); ("combo_actions", (EData (EVar "name") (EStr "combo_actions")))])]))])); ("timing_spec", (ECall "TimingSpec" [] [("base_cast_time",
  (EInt 0)); ("animation_lock", (EInt 650)); ("application_delay", (EInt 0))])); ("follow_up_skills", (EDict [((EConst "SimConsts.DEFAULT_CONDITION"),
  (ETup [(EVar "jinpu_follow_up"); (EMeth "__get_fugetsu_follow_up" [] [])])); ((EStr "No Combo"), (ETup [(EVar "jinpu_no_combo_follow_up")]))]))])].

(** simulator/game_data/class_skills/melee/sam.py lines 151-167: enpi *)
Definition sam_m6 : pmethod := mkMethod "enpi" []
  [SAsg "name" (EStr "Enpi"); SRet (ECall "Skill" [] [("name", (EVar "name")); ("is_GCD", (EBool true)); ("damage_spec", (EDict [((EConst
  "SimConsts.DEFAULT_CONDITION"), (ECall "DamageSpec" [] [("potency", (EPot (EVar "name")))])); ((EStr "Enhanced Enpi"), (ECall "DamageSpec" []
  [("potency", (EData (EVar "name") (EStr "potency_enhanced")))]))])); ("timing_spec", (ECall "TimingSpec" [] [("base_cast_time", (EInt 0));
  ("animation_lock", (EInt 650)); ("application_delay", (EInt 710))]))])].

(** simulator/game_data/class_skills/melee/sam.py lines 170-193: hissatsu_yaten *)
Definition sam_m7 : pmethod := mkMethod "hissatsu_yaten" []
  [SAsg "enhanced_enpi_follow_up" (ECall "FollowUp" [] [("skill", (ECall "Skill" [] [("name", (EStr "Enhanced Enpi")); ("buff_spec", (ECall
  "StatusEffectSpec" [] [("add_to_skill_modifier_condition", (EBool true)); ("num_uses", (EInt 1)); ("duration", (EBin BMul (EInt 15) (EInt 1000)));
  ("skill_allowlist", (ETup [(EStr "Enpi")]))]))])); ("delay_after_parent_application", (EInt 0))]); SAsg "name" (EStr "Hissatsu: Yaten"); SRet (ECall
  "Skill" [] [("name", (EVar "name")); ("is_GCD", (EBool false)); ("damage_spec", (ECall "DamageSpec" [] [("potency", (EPot (EVar "name")))]));
  ("timing_spec", (ECall "TimingSpec" [] [("base_cast_time", (EInt 0)); ("animation_lock", (EInt 650)); ("application_delay", (EInt 450))]));
  ("follow_up_skills", (ETup [(EVar "enhanced_enpi_follow_up")]))])].

(** simulator/game_data/class_skills/melee/sam.py lines 196-252: shifu *)
Definition sam_m8 : pmethod := mkMethod "shifu" []
  [SAsg "name" (EStr "Shifu"); SAsg "shifu_follow_up" (ECall "FollowUp" [] [("skill", (ECall "Skill" [] [("name", (EVar "name")); ("damage_spec",
  (ECall "DamageSpec" [] [("potency", (EPot (EVar "name")))]))])); ("delay_after_parent_application", (EInt 800))]); SAsg "shifu_no_combo_follow_up"
  (ECall "FollowUp" [] [("skill", (ECall "Skill" [] [("name", (EVar "name")); ("damage_spec", (ECall "DamageSpec" [] [("potency", (EPotNC (EVar
  "name")))]))])); ("delay_after_parent_application", (EInt 800))]); SRet (ECall "Skill" [] [("name", (EVar "name")); ("is_GCD", (EBool true));
  ("ignored_conditions_for_bonus_potency", (ETup [(EStr "Meikyo Shisui")])); ("combo_spec", (EDict [((EConst "SimConsts.DEFAULT_CONDITION"), (ETup
  [(ECall "ComboSpec" [] [("combo_actions", (EData (EVar "name") (EStr "combo_actions")))])])); ((EStr "No Combo"), (ETup [(ECall "ComboSpec" []
  [("combo_actions", (EData (EVar "name") (EStr "combo_actions")))])])); ((EStr "Meikyo Shisui"), (ETup [(ECall "ComboSpec" [] [("combo_auto_succeed",
  (EBool true)); ("combo_actions", (EData (EVar "name") (EStr "combo_actions")))])]))])); ("timing_spec", (ECall "TimingSpec" [] [("base_cast_time",
  (EInt 0)); ("animation_lock", (EInt 650)); ("application_delay", (EInt 0))])); ("follow_up_skills", (EDict [((EConst "SimConsts.DEFAULT_CONDITION"),
  (ETup [(EVar "shifu_follow_up"); (EMeth "__get_fuka_follow_up" [] [])])); ((EStr "No Combo"), (ETup [(EVar "shifu_no_combo_follow_up")]))]))])].

(** simulator/game_data/class_skills/melee/sam.py lines 255-328: gekko *)
Definition sam_m9 : pmethod := mkMethod "gekko" []
  [SAsg "name" (EStr "Gekko"); SAsg "gekko_follow_up" (ECall "FollowUp" [] [("skill", (ECall "Skill" [] [("name", (EVar "name")); ("damage_spec",
  (ECall "DamageSpec" [] [("potency", (EPot (EVar "name")))]))])); ("delay_after_parent_application", (EInt 760))]); SAsg "gekko_no_combo_follow_up"
  (ECall "FollowUp" [] [("skill", (ECall "Skill" [] [("name", (EVar "name")); ("damage_spec", (ECall "DamageSpec" [] [("potency", (EPotNC (EVar
  "name")))]))])); ("delay_after_parent_application", (EInt 760))]); SAsg "gekko_no_pos_follow_up" (ECall "FollowUp" [] [("skill", (ECall "Skill" []
  [("name", (EVar "name")); ("damage_spec", (ECall "DamageSpec" [] [("potency", (EPotNP (EVar "name")))]))])); ("delay_after_parent_application",
  (EInt 760))]); SAsg "gekko_no_pos_no_combo_follow_up" (ECall "FollowUp" [] [("skill", (ECall "Skill" [] [("name", (EVar "name")); ("damage_spec",
  (ECall "DamageSpec" [] [("potency", (EData (EVar "name") (EStr "potency_no_pos_no_combo")))]))])); ("delay_after_parent_application", (EInt 760))]);
  SAsg "fugetsu_follow_up" (EMeth "__get_fugetsu_follow_up" [] []); SRet (ECall "Skill" [] [("name", (EVar "name")); ("is_GCD", (EBool true));
  ("ignored_conditions_for_bonus_potency", (ETup [(EStr "Meikyo Shisui")])); ("combo_spec", (EDict [((EConst "SimConsts.DEFAULT_CONDITION"), (ETup
  [(ECall "ComboSpec" [] [("combo_actions", (ETup [(EStr "Jinpu")]))])])); ((EStr "No Combo"), (ETup [(ECall "ComboSpec" [] [("combo_actions", (ETup
  [(EStr "Jinpu")]))])])); ((EStr "No Positional"), (ETup [(ECall "ComboSpec" [] [("combo_actions", (ETup [(EStr "Jinpu")]))])])); ((EStr
  "Meikyo Shisui"), (ETup [(ECall "ComboSpec" [] [("combo_auto_succeed", (EBool true)); ("combo_actions", (ETup [(EStr "Jinpu")]))])])); ((EStr
  "No Positional, Meikyo Shisui"), (ETup [(ECall "ComboSpec" [] [("combo_auto_succeed", (EBool true)); ("combo_actions", (ETup [(EStr
  "Jinpu")]))])]))])); ("timing_spec", (ECall "TimingSpec" [] [("base_cast_time", (EInt 0)); ("animation_lock", (EInt 650)); ("application_delay",
  (EInt 0))])); ("follow_up_skills", (EDict [((EConst "SimConsts.DEFAULT_CONDITION"), (ETup [(EVar "gekko_follow_up")])); ((EStr
  "No Combo, No Positional"), (ETup [(EVar "gekko_no_pos_no_combo_follow_up")])); ((EStr "No Combo"), (ETup [(EVar "gekko_no_combo_follow_up")]));
  ((EStr "No Positional"), (ETup [(EVar "gekko_no_pos_follow_up")])); ((EStr "Meikyo Shisui"), (ETup [(EVar "gekko_follow_up"); (EVar
  "fugetsu_follow_up")])); ((EStr "Meikyo Shisui, No Combo, No Positional"), (ETup [(EVar "gekko_no_pos_follow_up"); (EVar "fugetsu_follow_up")]));
  ((EStr "Meikyo Shisui, No Combo"), (ETup [(EVar "gekko_follow_up"); (EVar "fugetsu_follow_up")])); ((EStr "Meikyo Shisui, No Positional"), (ETup
  [(EVar "gekko_no_pos_follow_up"); (EVar "fugetsu_follow_up")]))]))])].

(** simulator/game_data/class_skills/melee/sam.py lines 330-337: __get_iaijutsu_timing *)
Definition sam_m10 : pmethod := mkMethod "__get_iaijutsu_timing" []
  [SRet (ECall "TimingSpec" [] [("base_cast_time", (EInt 1300)); ("affected_by_speed_stat", (EBool false)); ("affected_by_haste_buffs", (EBool
  false)); ("animation_lock", (EInt 0)); ("application_delay", (EInt 620))])].

(** simulator/game_data/class_skills/melee/sam.py lines 339-354: __get_higanbana_follow_up *)
Definition sam_m11 : pmethod := mkMethod "__get_higanbana_follow_up" []
  [SAsg "name" (EStr "Higanbana (dot)"); SRet (ECall "FollowUp" [] [("skill", (ECall "Skill" [] [("name", (EVar "name")); ("is_GCD", (EBool false));
  ("damage_spec", (ECall "DamageSpec" [] [("potency", (EPot (EVar "name"))); ("damage_class", (EConst "DamageClass.PHYSICAL_DOT"))]))]));
  ("delay_after_parent_application", (EInt 0)); ("dot_duration", (EBin BMul (EInt 60) (EInt 1000))); ("snapshot_buffs_with_parent", (EBool true));
  ("snapshot_debuffs_with_parent", (EBool true))])].

(** simulator/game_data/class_skills/melee/sam.py lines 357-365: higanbana *)
Definition sam_m12 : pmethod := mkMethod "higanbana" []
  [SAsg "name" (EStr "Higanbana"); SRet (ECall "Skill" [] [("name", (EVar "name")); ("is_GCD", (EBool true)); ("damage_spec", (ECall "DamageSpec" []
  [("potency", (EPot (EVar "name")))])); ("timing_spec", (EMeth "__get_iaijutsu_timing" [] [])); ("follow_up_skills", (ETup [(EMeth
  "__get_higanbana_follow_up" [] [])]))])].

(** simulator/game_data/class_skills/melee/sam.py lines 368-375: tenka_goken *)
Definition sam_m13 : pmethod := mkMethod "tenka_goken" []
  [SAsg "name" (EStr "Tenka Goken"); SRet (ECall "Skill" [] [("name", (EVar "name")); ("is_GCD", (EBool true)); ("damage_spec", (ECall "DamageSpec" []
  [("potency", (EPot (EVar "name")))])); ("timing_spec", (EMeth "__get_iaijutsu_timing" [] []))])].

(** simulator/game_data/class_skills/melee/sam.py lines 378-388: midare_setsugekka *)
Definition sam_m14 : pmethod := mkMethod "midare_setsugekka" []
  [SAsg "name" (EStr "Midare Setsugekka"); SRet (ECall "Skill" [] [("name", (EVar "name")); ("is_GCD", (EBool true)); ("damage_spec", (ECall
  "DamageSpec" [] [("potency", (EPot (EVar "name"))); ("guaranteed_crit", (EConst "ForcedCritOrDH.FORCE_YES"))])); ("timing_spec", (EMeth
  "__get_iaijutsu_timing" [] []))])].

(** simulator/game_data/class_skills/melee/sam.py lines 391-401: kaeshi_higanbana *)
Definition sam_m15 : pmethod := mkMethod "kaeshi_higanbana" []
  [SIf (EVer OGt V655) [SRet ENone] []; SAsg "name" (EStr "Kaeshi: Higanbana"); SRet (ECall "Skill" [] [("name", (EVar "name")); ("is_GCD", (EBool
  true)); ("damage_spec", (ECall "DamageSpec" [] [("potency", (EPot (EVar "name")))])); ("timing_spec", (ESelf "instant_timing_spec"));
  ("follow_up_skills", (ETup [(EMeth "__get_higanbana_follow_up" [] [])]))])].

(** simulator/game_data/class_skills/melee/sam.py lines 404-413: kaeshi_goken *)
Definition sam_m16 : pmethod := mkMethod "kaeshi_goken" []
  [SAsg "name" (EStr "Kaeshi: Goken"); SRet (ECall "Skill" [] [("name", (EVar "name")); ("is_GCD", (EBool true)); ("damage_spec", (ECall "DamageSpec"
  [] [("potency", (EPot (EVar "name")))])); ("timing_spec", (ECall "TimingSpec" [] [("base_cast_time", (EInt 0)); ("animation_lock", (EInt 650));
  ("application_delay", (EInt 620))]))])].

(** simulator/game_data/class_skills/melee/sam.py lines 416-428: kaeshi_setsugekka *)
Definition sam_m17 : pmethod := mkMethod "kaeshi_setsugekka" []
  [SAsg "name" (EStr "Kaeshi: Setsugekka"); SRet (ECall "Skill" [] [("name", (EVar "name")); ("is_GCD", (EBool true)); ("damage_spec", (ECall
  "DamageSpec" [] [("potency", (EPot (EVar "name"))); ("guaranteed_crit", (EConst "ForcedCritOrDH.FORCE_YES"))])); ("timing_spec", (ECall "TimingSpec"
  [] [("base_cast_time", (EInt 0)); ("animation_lock", (EInt 650)); ("application_delay", (EInt 620))]))])].

(** simulator/game_data/class_skills/melee/sam.py lines 431-475: mangetsu *)
Definition sam_m18 : pmethod := mkMethod "mangetsu" []
  [SAsg "name" (EStr "Mangetsu"); SAsg "magnetsu_follow_up" (ECall "FollowUp" [] [("skill", (ECall "Skill" [] [("name", (EVar "name"));
  ("damage_spec", (ECall "DamageSpec" [] [("potency", (EPot (EVar "name")))])); ("has_aoe", (EBool true))])); ("delay_after_parent_application", (EInt
  620)); ("primary_target_only", (EBool false))]); SAsg "magnetsu_no_combo_follow_up" (ECall "FollowUp" [] [("skill", (ECall "Skill" [] [("name",
  (EVar "name")); ("damage_spec", (ECall "DamageSpec" [] [("potency", (EPotNC (EVar "name")))])); ("has_aoe", (EBool true))]));
  ("delay_after_parent_application", (EInt 620)); ("primary_target_only", (EBool false))]); SRet (ECall "Skill" [] [("name", (EVar "name"));
  ("is_GCD", (EBool true)); ("ignored_conditions_for_bonus_potency", (ETup [(EStr "Meikyo Shisui")])); ("combo_spec", (EDict [((EConst
  "SimConsts.DEFAULT_CONDITION"), (ETup [(ECall "ComboSpec" [] [("combo_actions", (ETup [(EStr "Fuko")]))])])); ((EStr "No Combo"), (ETup [(ECall
  "ComboSpec" [] [("combo_actions", (ETup [(EStr "Fuko")]))])])); ((EStr "Meikyo Shisui"), (ETup [(ECall "ComboSpec" [] [("combo_auto_succeed", (EBool
  true)); ("combo_actions", (ETup [(EStr "Fuko")]))])]))])); ("timing_spec", (ECall "TimingSpec" [] [("base_cast_time", (EInt 0)); ("animation_lock",
  (EInt 650)); ("application_delay", (EInt 0))])); ("follow_up_skills", (EDict [((EConst "SimConsts.DEFAULT_CONDITION"), (ETup [(EVar
  "magnetsu_follow_up"); (EMeth "__get_fugetsu_follow_up" [] [])])); ((EStr "No Combo"), (ETup [(EVar "magnetsu_no_combo_follow_up")]))]));
  ("has_aoe", (EBool true))])].

(** simulator/game_data/class_skills/melee/sam.py lines 478-551: kasha *)
Definition sam_m19 : pmethod := mkMethod "kasha" []
  [SAsg "name" (EStr "Kasha"); SAsg "kasha_follow_up" (ECall "FollowUp" [] [("skill", (ECall "Skill" [] [("name", (EVar "name")); ("damage_spec",
  (ECall "DamageSpec" [] [("potency", (EPot (EVar "name")))]))])); ("delay_after_parent_application", (EInt 620))]); SAsg "kasha_no_combo_follow_up"
  (ECall "FollowUp" [] [("skill", (ECall "Skill" [] [("name", (EVar "name")); ("damage_spec", (ECall "DamageSpec" [] [("potency", (EPotNC (EVar
  "name")))]))])); ("delay_after_parent_application", (EInt 620))]); SAsg "kasha_no_pos_follow_up" (ECall "FollowUp" [] [("skill", (ECall "Skill" []
  [("name", (EVar "name")); ("damage_spec", (ECall "DamageSpec" [] [("potency", (EPotNP (EVar "name")))]))])); ("delay_after_parent_application",
  (EInt 620))]); SAsg "kasha_no_pos_no_combo_follow_up" (ECall "FollowUp" [] [("skill", (ECall "Skill" [] [("name", (EVar "name")); ("damage_spec",
  (ECall "DamageSpec" [] [("potency", (EData (EVar "name") (EStr "potency_no_pos_no_combo")))]))])); ("delay_after_parent_application", (EInt 620))]);
  SAsg "fuka_follow_up" (EMeth "__get_fuka_follow_up" [] []); SRet (ECall "Skill" [] [("name", (EVar "name")); ("is_GCD", (EBool true));
  ("ignored_conditions_for_bonus_potency", (ETup [(EStr "Meikyo Shisui")])); ("combo_spec", (EDict [((EConst "SimConsts.DEFAULT_CONDITION"), (ETup
  [(ECall "ComboSpec" [] [("combo_actions", (ETup [(EStr "Shifu")]))])])); ((EStr "No Combo"), (ETup [(ECall "ComboSpec" [] [("combo_actions", (ETup
  [(EStr "Shifu")]))])])); ((EStr "No Positional"), (ETup [(ECall "ComboSpec" [] [("combo_actions", (ETup [(EStr "Shifu")]))])])); ((EStr
  "Meikyo Shisui"), (ETup [(ECall "ComboSpec" [] [("combo_auto_succeed", (EBool true)); ("combo_actions", (ETup [(EStr "Shifu")]))])])); ((EStr
  "No Positional, Meikyo Shisui"), (ETup [(ECall "ComboSpec" [] [("combo_auto_succeed", (EBool true)); ("combo_actions", (ETup [(EStr
  "Shifu")]))])]))])); ("timing_spec", (ECall "TimingSpec" [] [("base_cast_time", (EInt 0)); ("animation_lock", (EInt 650)); ("application_delay",
  (EInt 0))])); ("follow_up_skills", (EDict [((EConst "SimConsts.DEFAULT_CONDITION"), (ETup [(EVar "kasha_follow_up")])); ((EStr
  "No Combo, No Positional"), (ETup [(EVar "kasha_no_pos_no_combo_follow_up")])); ((EStr "No Combo"), (ETup [(EVar "kasha_no_combo_follow_up")]));
  ((EStr "No Positional"), (ETup [(EVar "kasha_no_pos_follow_up")])); ((EStr "Meikyo Shisui"), (ETup [(EVar "kasha_follow_up"); (EVar
  "fuka_follow_up")])); ((EStr "Meikyo Shisui, No Combo, No Positional"), (ETup [(EVar "kasha_no_pos_follow_up"); (EVar "fuka_follow_up")])); ((EStr
  "Meikyo Shisui, No Combo"), (ETup [(EVar "kasha_follow_up"); (EVar "fuka_follow_up")])); ((EStr "Meikyo Shisui, No Positional"), (ETup [(EVar
  "kasha_no_pos_follow_up"); (EVar "fuka_follow_up")]))]))])].

(** simulator/game_data/class_skills/melee/sam.py lines 554-598: oka *)
Definition sam_m20 : pmethod := mkMethod "oka" []
  [SAsg "name" (EStr "Oka"); SAsg "oka_follow_up" (ECall "FollowUp" [] [("skill", (ECall "Skill" [] [("name", (EVar "name")); ("damage_spec", (ECall
  "DamageSpec" [] [("potency", (EPot (EVar "name")))])); ("has_aoe", (EBool true))])); ("delay_after_parent_application", (EInt 620));
  ("primary_target_only", (EBool false))]); SAsg "oka_no_combo_follow_up" (ECall "FollowUp" [] [("skill", (ECall "Skill" [] [("name", (EVar "name"));
  ("damage_spec", (ECall "DamageSpec" [] [("potency", (EPotNC (EVar "name")))])); ("has_aoe", (EBool true))])); ("delay_after_parent_application",
  (EInt 620)); ("primary_target_only", (EBool false))]); SRet (ECall "Skill" [] [("name", (EVar "name")); ("is_GCD", (EBool true));
  ("ignored_conditions_for_bonus_potency", (ETup [(EStr "Meikyo Shisui")])); ("combo_spec", (EDict [((EConst "SimConsts.DEFAULT_CONDITION"), (ETup
  [(ECall "ComboSpec" [] [("combo_actions", (ETup [(EStr "Fuko")]))])])); ((EStr "No Combo"), (ETup [(ECall "ComboSpec" [] [("combo_actions", (ETup
  [(EStr "Fuko")]))])])); ((EStr "Meikyo Shisui"), (ETup [(ECall "ComboSpec" [] [("combo_auto_succeed", (EBool true)); ("combo_actions", (ETup [(EStr
  "Fuko")]))])]))])); ("timing_spec", (ECall "TimingSpec" [] [("base_cast_time", (EInt 0)); ("animation_lock", (EInt 650)); ("application_delay",
  (EInt 0))])); ("follow_up_skills", (EDict [((EConst "SimConsts.DEFAULT_CONDITION"), (ETup [(EVar "oka_follow_up"); (EMeth "__get_fuka_follow_up" []
  [])])); ((EStr "No Combo"), (ETup [(EVar "oka_no_combo_follow_up")]))])); ("has_aoe", (EBool true))])].

(** simulator/game_data/class_skills/melee/sam.py lines 601-641: yukikaze *)
Definition sam_m21 : pmethod := mkMethod "yukikaze" []
  [SAsg "name" (EStr "Yukikaze"); SRet (ECall "Skill" [] [("name", (EVar "name")); ("is_GCD", (EBool true)); ("combo_spec", (EDict [((EConst
  "SimConsts.DEFAULT_CONDITION"), (ETup [(ECall "ComboSpec" [] [("combo_actions", (EData (EVar "name") (EStr "combo_actions")))])])); ((EStr
  "Meikyo Shisui"), (ETup [(ECall "ComboSpec" [] [("combo_auto_succeed", (EBool true)); ("combo_actions", (EData (EVar "name") (EStr
  "combo_actions")))])])); ((EStr "No Combo"), (ETup [(ECall "ComboSpec" [] [("combo_actions", (EData (EVar "name") (EStr "combo_actions")))])]))]));
  ("damage_spec", (EDict [((EConst "SimConsts.DEFAULT_CONDITION"), (ECall "DamageSpec" [] [("potency", (EPot (EVar "name")))])); ((EStr "No Combo"),
  (ECall "DamageSpec" [] [("potency", (EPotNC (EVar "name")))]))])); ("timing_spec", (ECall "TimingSpec" [] [("base_cast_time", (EInt 0));
  ("animation_lock", (EInt 650)); ("application_delay", (EInt 800))]))])].

(** simulator/game_data/class_skills/melee/sam.py lines 644-653: hissatsu_shinten *)
Definition sam_m22 : pmethod := mkMethod "hissatsu_shinten" []
  [SAsg "name" (EStr "Hissatsu: Shinten"); SRet (ECall "Skill" [] [("name", (EVar "name")); ("is_GCD", (EBool false)); ("damage_spec", (ECall
  "DamageSpec" [] [("potency", (EPot (EVar "name")))])); ("timing_spec", (ECall "TimingSpec" [] [("base_cast_time", (EInt 0)); ("animation_lock",
  (EInt 650)); ("application_delay", (EInt 620))]))])].

(** simulator/game_data/class_skills/melee/sam.py lines 656-665: hissatsu_gyoten *)
Definition sam_m23 : pmethod := mkMethod "hissatsu_gyoten" []
  [SAsg "name" (EStr "Hissatsu: Gyoten"); SRet (ECall "Skill" [] [("name", (EVar "name")); ("is_GCD", (EBool false)); ("damage_spec", (ECall
  "DamageSpec" [] [("potency", (EPot (EVar "name")))])); ("timing_spec", (ECall "TimingSpec" [] [("base_cast_time", (EInt 0)); ("animation_lock",
  (EInt 650)); ("application_delay", (EInt 490))]))])].

(** simulator/game_data/class_skills/melee/sam.py lines 668-678: hissatsu_kyuten *)
Definition sam_m24 : pmethod := mkMethod "hissatsu_kyuten" []
  [SAsg "name" (EStr "Hissatsu: Kyuten"); SRet (ECall "Skill" [] [("name", (EVar "name")); ("is_GCD", (EBool false)); ("damage_spec", (ECall
  "DamageSpec" [] [("potency", (EPot (EVar "name")))])); ("timing_spec", (ECall "TimingSpec" [] [("base_cast_time", (EInt 0)); ("animation_lock",
  (EInt 650)); ("application_delay", (EInt 620))])); ("has_aoe", (EBool true))])].

(** simulator/game_data/class_skills/melee/sam.py lines 681-692: hissatsu_guren *)
Definition sam_m25 : pmethod := mkMethod "hissatsu_guren" []
  [SAsg "name" (EStr "Hissatsu: Guren"); SRet (ECall "Skill" [] [("name", (EVar "name")); ("is_GCD", (EBool false)); ("damage_spec", (ECall
  "DamageSpec" [] [("potency", (EPot (EVar "name")))])); ("timing_spec", (ECall "TimingSpec" [] [("base_cast_time", (EInt 0)); ("animation_lock",
  (EInt 650)); ("application_delay", (EInt 620))])); ("has_aoe", (EBool true)); ("aoe_dropoff", (EFlt 1 4))])].

(** simulator/game_data/class_skills/melee/sam.py lines 695-704: hissatsu_senei *)
Definition sam_m26 : pmethod := mkMethod "hissatsu_senei" []
  [SAsg "name" (EStr "Hissatsu: Senei"); SRet (ECall "Skill" [] [("name", (EVar "name")); ("is_GCD", (EBool false)); ("damage_spec", (ECall
  "DamageSpec" [] [("potency", (EPot (EVar "name")))])); ("timing_spec", (ECall "TimingSpec" [] [("base_cast_time", (EInt 0)); ("animation_lock",
  (EInt 650)); ("application_delay", (EInt 670))]))])].

(** simulator/game_data/class_skills/melee/sam.py lines 707-718: shoha *)
Definition sam_m27 : pmethod := mkMethod "shoha" []
  [SAsg "name" (EStr "Shoha"); SRet (ECall "Skill" [] [("name", (EVar "name")); ("is_GCD", (EBool false)); ("damage_spec", (ECall "DamageSpec" []
  [("potency", (EPot (EVar "name")))])); ("timing_spec", (ECall "TimingSpec" [] [("base_cast_time", (EInt 0)); ("animation_lock", (EInt 650));
  ("application_delay", (EInt 580))])); ("has_aoe", (EBool true)); ("aoe_dropoff", (EFlt 13 20))])].

(** simulator/game_data/class_skills/melee/sam.py lines 721-732: shoha_ii *)
Definition sam_m28 : pmethod := mkMethod "shoha_ii" []
  [SIf (EVer OGt V655) [SRet ENone] []; SAsg "name" (EStr "Shoha II"); SRet (ECall "Skill" [] [("name", (EVar "name")); ("is_GCD", (EBool false));
  ("damage_spec", (ECall "DamageSpec" [] [("potency", (EPot (EVar "name")))])); ("timing_spec", (ECall "TimingSpec" [] [("base_cast_time", (EInt 0));
  ("animation_lock", (EInt 650)); ("application_delay", (EInt 580))]))])].

(** simulator/game_data/class_skills/melee/sam.py lines 735-746: fuko *)
Definition sam_m29 : pmethod := mkMethod "fuko" []
  [SAsg "name" (EStr "Fuko"); SRet (ECall "Skill" [] [("name", (EVar "name")); ("is_GCD", (EBool true)); ("combo_spec", (ETup [(ECall "ComboSpec" []
  [])])); ("damage_spec", (ECall "DamageSpec" [] [("potency", (EPot (EVar "name")))])); ("timing_spec", (ECall "TimingSpec" [] [("base_cast_time",
  (EInt 0)); ("animation_lock", (EInt 650)); ("application_delay", (EInt 760))])); ("has_aoe", (EBool true))])].

(** simulator/game_data/class_skills/melee/sam.py lines 749-766: ogi_namikiri *)
Definition sam_m30 : pmethod := mkMethod "ogi_namikiri" []
  [SAsg "name" (EStr "Ogi Namikiri"); SRet (ECall "Skill" [] [("name", (EVar "name")); ("is_GCD", (EBool true)); ("damage_spec", (ECall "DamageSpec"
  [] [("potency", (EPot (EVar "name"))); ("guaranteed_crit", (EConst "ForcedCritOrDH.FORCE_YES"))])); ("timing_spec", (ECall "TimingSpec" []
  [("base_cast_time", (EInt 1300)); ("affected_by_speed_stat", (EBool false)); ("affected_by_haste_buffs", (EBool false)); ("application_delay", (EInt
  490))])); ("has_aoe", (EBool true)); ("aoe_dropoff", (EFlt 3 4))])].

(** simulator/game_data/class_skills/melee/sam.py lines 769-783: kaeshi_namikiri *)
Definition sam_m31 : pmethod := mkMethod "kaeshi_namikiri" []
  [SAsg "name" (EStr "Kaeshi: Namikiri"); SRet (ECall "Skill" [] [("name", (EVar "name")); ("is_GCD", (EBool true)); ("damage_spec", (ECall
  "DamageSpec" [] [("potency", (EPot (EVar "name"))); ("guaranteed_crit", (EConst "ForcedCritOrDH.FORCE_YES"))])); ("timing_spec", (ECall "TimingSpec"
  [] [("base_cast_time", (EInt 0)); ("animation_lock", (EInt 650)); ("application_delay", (EInt 490))])); ("has_aoe", (EBool true)); ("aoe_dropoff",
  (EFlt 3 4))])].

(** simulator/game_data/class_skills/melee/sam.py lines 786-799: zanshin *)
Definition sam_m32 : pmethod := mkMethod "zanshin" []
  [SIf (ELev OLt K96) [SRet ENone] []; SAsg "name" (EStr "Zanshin"); SRet (ECall "Skill" [] [("name", (EVar "name")); ("is_GCD", (EBool false));
  ("damage_spec", (ECall "DamageSpec" [] [("potency", (EPot (EVar "name")))])); ("timing_spec", (ECall "TimingSpec" [] [("base_cast_time", (EInt 0));
  ("animation_lock", (EInt 650)); ("application_delay", (EInt 1030))])); ("has_aoe", (EBool true)); ("aoe_dropoff", (EFlt 3 5))])].

(** simulator/game_data/class_skills/melee/sam.py lines 802-813: tendo_goken *)
Definition sam_m33 : pmethod := mkMethod "tendo_goken" []
  [SIf (ELev OLt K100) [SRet ENone] []; SAsg "name" (EStr "Tendo Goken"); SRet (ECall "Skill" [] [("name", (EVar "name")); ("is_GCD", (EBool true));
  ("damage_spec", (ECall "DamageSpec" [] [("potency", (EPot (EVar "name")))])); ("timing_spec", (ECall "TimingSpec" [] [("base_cast_time", (EInt
  1300)); ("animation_lock", (EInt 650)); ("application_delay", (EInt 360))]))])].

(** simulator/game_data/class_skills/melee/sam.py lines 816-835: tendo_setsugekka *)
Definition sam_m34 : pmethod := mkMethod "tendo_setsugekka" []
  [SIf (ELev OLt K100) [SRet ENone] []; SAsg "name" (EStr "Tendo Setsugekka"); SRet (ECall "Skill" [] [("name", (EVar "name")); ("is_GCD", (EBool
  true)); ("damage_spec", (ECall "DamageSpec" [] [("potency", (EPot (EVar "name"))); ("guaranteed_crit", (EConst "ForcedCritOrDH.FORCE_YES"))]));
  ("timing_spec", (ECall "TimingSpec" [] [("base_cast_time", (EInt 1300)); ("animation_lock", (EInt 650)); ("application_delay", (EInt 1030));
  ("gcd_base_recast_time", (EData (EVar "name") (EStr "gcd_base_recast_time")))]))])].

(** simulator/game_data/class_skills/melee/sam.py lines 838-849: tendo_kaeshi_goken *)
Definition sam_m35 : pmethod := mkMethod "tendo_kaeshi_goken" []
  [SIf (ELev OLt K100) [SRet ENone] []; SAsg "name" (EStr "Tendo Kaeshi Goken"); SRet (ECall "Skill" [] [("name", (EVar "name")); ("is_GCD", (EBool
  true)); ("damage_spec", (ECall "DamageSpec" [] [("potency", (EPot (EVar "name")))])); ("timing_spec", (ECall "TimingSpec" [] [("base_cast_time",
  (EInt 0)); ("animation_lock", (EInt 650)); ("application_delay", (EInt 360))]))])].

(** simulator/game_data/class_skills/melee/sam.py lines 852-871: tendo_kaeshi_setsugekka *)
Definition sam_m36 : pmethod := mkMethod "tendo_kaeshi_setsugekka" []
  [SIf (ELev OLt K100) [SRet ENone] []; SAsg "name" (EStr "Tendo Kaeshi Setsugekka"); SRet (ECall "Skill" [] [("name", (EVar "name")); ("is_GCD",
  (EBool true)); ("damage_spec", (ECall "DamageSpec" [] [("potency", (EPot (EVar "name"))); ("guaranteed_crit", (EConst
  "ForcedCritOrDH.FORCE_YES"))])); ("timing_spec", (ECall "TimingSpec" [] [("base_cast_time", (EInt 0)); ("animation_lock", (EInt 650));
  ("application_delay", (EInt 1030)); ("gcd_base_recast_time", (EData (EVar "name") (EStr "gcd_base_recast_time")))]))])].

(** simulator/game_data/class_skills/melee/sam.py lines 874-896: meikyo_shisui *)
Definition sam_m37 : pmethod := mkMethod "meikyo_shisui" []
  [SAsg "name" (EStr "Meikyo Shisui"); SRet (ECall "Skill" [] [("name", (EVar "name")); ("is_GCD", (EBool false)); ("timing_spec", (ESelf
  "instant_timing_spec")); ("buff_spec", (ECall "StatusEffectSpec" [] [("add_to_skill_modifier_condition", (EBool true)); ("num_uses", (EInt 3));
  ("duration", (ECall "int" [(EBin BMul (EFlt 151 10) (EInt 1000))] [])); ("skill_allowlist", (ETup [(EStr "Hakaze"); (EStr "Jinpu"); (EStr "Shifu");
  (EStr "Gekko"); (EStr "Mangetsu"); (EStr "Kasha"); (EStr "Oka"); (EStr "Yukikaze"); (EStr "Fuko")]))]))])].

(** simulator/game_data/class_skills/melee/sam.py lines 899-901: true_north *)
Definition sam_m38 : pmethod := mkMethod "true_north" []
  [SAsg "name" (EStr "True North"); SRet (ECall "Skill" [] [("name", (EVar "name")); ("is_GCD", (EBool false)); ("timing_spec", (ESelf
  "instant_timing_spec"))])].

(** simulator/game_data/class_skills/melee/sam.py lines 904-906: tengentsu *)
Definition sam_m39 : pmethod := mkMethod "tengentsu" []
  [SAsg "name" (EStr "Tengentsu"); SRet (ECall "Skill" [] [("name", (EVar "name")); ("is_GCD", (EBool false)); ("timing_spec", (ESelf
  "instant_timing_spec"))])].

(** simulator/game_data/class_skills/melee/sam.py lines 909-911: hagakure *)
Definition sam_m40 : pmethod := mkMethod "hagakure" []
  [SAsg "name" (EStr "Hagakure"); SRet (ECall "Skill" [] [("name", (EVar "name")); ("is_GCD", (EBool false)); ("timing_spec", (ESelf
  "instant_timing_spec"))])].

(** simulator/game_data/class_skills/melee/sam.py lines 914-916: ikishoten *)
Definition sam_m41 : pmethod := mkMethod "ikishoten" []
  [SAsg "name" (EStr "Ikishoten"); SRet (ECall "Skill" [] [("name", (EVar "name")); ("is_GCD", (EBool false)); ("timing_spec", (ESelf
  "instant_timing_spec"))])].

(** simulator/game_data/class_skills/melee/sam.py lines 19-21: __init__ after super().__init__ *)
Definition sam_init : list stmt :=
  [SAttr "_job_class" (EStr "SAM")].

(** simulator/game_data/class_skills/melee/sam.py lines 17-916: class SamSkills; the decorated methods in the order of [dir] *)
Definition sam_class : pclass := mkClass [] sam_init
  [sam_m0; sam_m1; sam_m2; sam_m3; sam_m4; sam_m5; sam_m6; sam_m7; sam_m8; sam_m9; sam_m10; sam_m11; sam_m12; sam_m13; sam_m14; sam_m15; sam_m16;
  sam_m17; sam_m18; sam_m19; sam_m20; sam_m21; sam_m22; sam_m23; sam_m24; sam_m25; sam_m26; sam_m27; sam_m28; sam_m29; sam_m30; sam_m31; sam_m32;
  sam_m33; sam_m34; sam_m35; sam_m36; sam_m37; sam_m38; sam_m39; sam_m40; sam_m41]
  ["auto"; "enpi"; "fuko"; "gekko"; "gyofu"; "hagakure"; "hakaze"; "higanbana"; "hissatsu_guren"; "hissatsu_gyoten"; "hissatsu_kyuten";
  "hissatsu_senei"; "hissatsu_shinten"; "hissatsu_yaten"; "ikishoten"; "jinpu"; "kaeshi_goken"; "kaeshi_higanbana"; "kaeshi_namikiri";
  "kaeshi_setsugekka"; "kasha"; "mangetsu"; "meikyo_shisui"; "midare_setsugekka"; "ogi_namikiri"; "oka"; "shifu"; "shoha"; "shoha_ii"; "tendo_goken";
  "tendo_kaeshi_goken"; "tendo_kaeshi_setsugekka"; "tendo_setsugekka"; "tengentsu"; "tenka_goken"; "true_north"; "yukikaze"; "zanshin"]
  []
  sam_data.
