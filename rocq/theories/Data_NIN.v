(** * NIN: the shipped skill definitions.

    Generated by tools/gen_game_data.py from
    simulator/game_data/class_skills/melee/nin.py and simulator/game_data/class_skills/melee/nin_data.py. *)

From Coq Require Import ZArith List String.
From Verif Require Import Py.
Import ListNotations.
Open Scope string_scope.
Open Scope Z_scope.

(** simulator/game_data/class_skills/melee/nin_data.py lines 10-176, in dict-literal order *)
Definition nin_data : data_table := [
  ("Bunshin", [(90, [("potency_melee", [(V655, (EInt 160))]); ("potency_ranged", [(V655, (EInt 160))]); ("potency_area", [(V655, (EInt 80))]);
  ("allowlist", [(V655, (ETup [(EStr "Spinning Edge"); (EStr "Gust Slash"); (EStr "Throwing Dagger"); (EStr "Aeolian Edge"); (EStr "Death Blossom");
  (EStr "Hakke Mujinsatsu"); (EStr "Armor Crush"); (EStr "Huraijin"); (EStr "Forked Raiju"); (EStr "Fleeting Raiju")])); (V70, (ETup [(EStr
  "Spinning Edge"); (EStr "Gust Slash"); (EStr "Throwing Dagger"); (EStr "Aeolian Edge"); (EStr "Death Blossom"); (EStr "Hakke Mujinsatsu"); (EStr
  "Armor Crush"); (EStr "Forked Raiju"); (EStr "Fleeting Raiju")]))])]); (100, [("potency_melee", [(V70, (EInt 160))]); ("potency_ranged", [(V70,
  (EInt 160))]); ("potency_area", [(V70, (EInt 80))]); ("allowlist", [(V70, (ETup [(EStr "Spinning Edge"); (EStr "Gust Slash"); (EStr
  "Throwing Dagger"); (EStr "Aeolian Edge"); (EStr "Death Blossom"); (EStr "Hakke Mujinsatsu"); (EStr "Armor Crush"); (EStr "Forked Raiju"); (EStr
  "Fleeting Raiju")]))])])]);
  ("Dream Within a Dream", [(90, [("potency", [(V655, (EInt 150)); (V71, (EInt 180))])]); (100, [("potency", [(V70, (EInt 150)); (V71, (EInt
  180))])])]);
  ("Doton (dot)", [(90, [("potency", [(V655, (EInt 80))])]); (100, [("potency", [(V70, (EInt 80))])])]);
  ("Doton hollow nozuchi (dot)", [(90, [("potency", [(V655, (EInt 50))])]); (100, [("potency", [(V70, (EInt 50))])])]);
  ("Spinning Edge", [(90, [("potency", [(V655, (EInt 220))])]); (100, [("potency", [(V655, (EInt 300))])])]);
  ("Gust Slash", [(90, [("potency", [(V655, (EInt 320))]); ("potency_no_combo", [(V655, (EInt 160))])]); (100, [("potency", [(V70, (EInt 380)); (V705,
  (EInt 400))]); ("potency_no_combo", [(V70, (EInt 220)); (V705, (EInt 240))])])]);
  ("Throwing Dagger", [(90, [("potency", [(V655, (EInt 120)); (V71, (EInt 200))])]); (100, [("potency", [(V70, (EInt 120)); (V71, (EInt 200))])])]);
  ("Mug", [(90, [("potency", [(V655, (EInt 150))]); ("duration", [(V655, (ECall "int" [(EBin BMul (EFlt 41 2) (EInt 1000))] []))])])]);
  ("Trick Attack", [(90, [("potency", [(V655, (EInt 400))]); ("potency_no_pos", [(V655, (EInt 300))]); ("duration", [(V655, (ECall "int" [(EBin BMul
  (EFlt 1577 100) (EInt 1000))] []))])])]);
  ("Aeolian Edge", [(90, [("potency", [(V655, (EInt 440)); (V70, (EInt 380))]); ("potency_no_combo", [(V655, (EInt 200))]); ("potency_no_pos", [(V655,
  (EInt 380)); (V70, (EInt 320))]); ("potency_no_pos_no_combo", [(V655, (EInt 140))]); ("potency_increment_kaz", [(V70, (EInt 100))])]); (100,
  [("potency", [(V70, (EInt 440))]); ("potency_no_combo", [(V70, (EInt 260))]); ("potency_no_pos", [(V70, (EInt 380))]); ("potency_no_pos_no_combo",
  [(V70, (EInt 200))]); ("potency_increment_kaz", [(V70, (EInt 100))])])]);
  ("Death Blossom", [(90, [("potency", [(V655, (EInt 100))])]); (100, [("potency", [(V70, (EInt 100))])])]);
  ("Hakke Mujinsatsu", [(90, [("potency", [(V655, (EInt 130))]); ("potency_no_combo", [(V655, (EInt 100))])]); (100, [("potency", [(V70, (EInt
  130))]); ("potency_no_combo", [(V70, (EInt 100))])])]);
  ("Armor Crush", [(90, [("potency", [(V655, (EInt 420)); (V705, (EInt 400))]); ("potency_no_combo", [(V655, (EInt 200))]); ("potency_no_pos", [(V655,
  (EInt 360)); (V70, (EInt 340))]); ("potency_no_pos_no_combo", [(V655, (EInt 140))]); ("job_resource", [(V655, (ECall "tuple" [] [])); (V70, (ETup
  [(ECall "JobResourceSpec" [] [("name", (EStr "Kazematoi")); ("change", (EInt 2))])]))])]); (100, [("potency", [(V70, (EInt 480))]);
  ("potency_no_combo", [(V70, (EInt 280))]); ("potency_no_pos", [(V70, (EInt 420))]); ("potency_no_pos_no_combo", [(V70, (EInt 220))]);
  ("job_resource", [(V70, (ETup [(ECall "JobResourceSpec" [] [("name", (EStr "Kazematoi")); ("change", (EInt 2))])]))])])]);
  ("Dokumori", [(90, [("potency", [(V70, (EInt 300))]); ("duration", [(V70, (ECall "int" [(EBin BMul (EFlt 1051 50) (EInt 1000))] []))])]); (100,
  [("potency", [(V70, (EInt 300))]); ("duration", [(V70, (ECall "int" [(EBin BMul (EFlt 1051 50) (EInt 1000))] []))])])]);
  ("Huraijin", [(90, [("potency", [(V655, (EInt 200))])])]);
  ("Hellfrog Medium", [(90, [("potency", [(V655, (EInt 160))])]); (100, [("potency", [(V70, (EInt 160))])])]);
  ("Bhavacakra", [(90, [("potency", [(V655, (EInt 350))]); ("potency_mesui", [(V655, (EInt 500))])]); (100, [("potency", [(V70, (EInt 380))]);
  ("potency_mesui", [(V70, (EInt 530))])])]);
  ("Phantom Kamaitachi (pet)", [(90, [("potency", [(V655, (EInt 600))])]); (100, [("potency", [(V70, (EInt 600))])])]);
  ("Forked Raiju", [(90, [("potency", [(V655, (EInt 560))])]); (100, [("potency", [(V70, (EInt 640)); (V705, (EInt 700))])])]);
  ("Fleeting Raiju", [(90, [("potency", [(V655, (EInt 560))])]); (100, [("potency", [(V70, (EInt 640)); (V705, (EInt 700))])])]);
  ("Fuma Shuriken", [(90, [("potency", [(V655, (EInt 450))])]); (100, [("potency", [(V70, (EInt 500))])])]);
  ("Katon", [(90, [("potency", [(V655, (EInt 350))])]); (100, [("potency", [(V70, (EInt 350))])])]);
  ("Raiton", [(90, [("potency", [(V655, (EInt 650))])]); (100, [("potency", [(V70, (EInt 740))])])]);
  ("Hyoton", [(90, [("potency", [(V655, (EInt 350))])]); (100, [("potency", [(V70, (EInt 350))])])]);
  ("Huton", [(90, [("damage_spec", [(V655, ENone); (V70, (ECall "DamageSpec" [] [("potency", (EInt 240))]))])]); (100, [("damage_spec", [(V70, (ECall
  "DamageSpec" [] [("potency", (EInt 240))]))])])]);
  ("Suiton", [(90, [("potency", [(V655, (EInt 500))])]); (100, [("potency", [(V70, (EInt 580))])])]);
  ("Goka Mekkyaku", [(90, [("potency", [(V655, (EInt 600))])]); (100, [("potency", [(V70, (EInt 600))])])]);
  ("Hyosho Ranryu", [(90, [("potency", [(V655, (EInt 1300))])]); (100, [("potency", [(V70, (EInt 1300))])])]);
  ("Meisui", [(90, [("allowlist", [(V655, (ETup [(EStr "Bhavacakra")]))])]); (100, [("allowlist", [(V70, (ETup [(EStr "Bhavacakra"); (EStr
  "Zesho Meppo")]))])])]);
  ("Kunai's Bane", [(100, [("potency", [(V70, (EInt 600))]); ("duration", [(V70, (ECall "int" [(EBin BMul (EFlt 813 50) (EInt 1000))] []))])])]);
  ("Deathfrog Medium", [(100, [("potency", [(V70, (EInt 300))])])]);
  ("Zesho Meppo", [(100, [("potency", [(V70, (EInt 550)); (V705, (EInt 700))]); ("potency_mesui", [(V70, (EInt 700)); (V705, (EInt 850))])])]);
  ("Tenri Jindo", [(100, [("potency", [(V70, (EInt 1000)); (V705, (EInt 1100))])])])].

(** simulator/game_data/class_skills/melee/nin.py lines 36-43: __get_mudra_timing_spec *)
Definition nin_m0 : pmethod := mkMethod "__get_mudra_timing_spec" []
  [SRet (ECall "TimingSpec" [] [("base_cast_time", (EInt 0)); ("gcd_base_recast_time", (EInt 500)); ("affected_by_speed_stat", (EBool false));
  ("affected_by_haste_buffs", (EBool false)); ("animation_lock", (EInt 0))])].

(** simulator/game_data/class_skills/melee/nin.py lines 45-88: __get_all_bunshin_follow_ups *)
Definition nin_m1 : pmethod := mkMethod "__get_all_bunshin_follow_ups" []
  [SAsg "BUNSHIN_MELEE_POTENCY" (EData (EStr "Bunshin") (EStr "potency_melee")); SAsg "BUNSHIN_RANGED_POTENCY" (EData (EStr "Bunshin") (EStr
  "potency_ranged")); SAsg "BUNSHIN_AREA_POTENCY" (EData (EStr "Bunshin") (EStr "potency_area")); SAsg "bunshin_follow_ups" (EList [(ETup [(EStr
  "Spinning Edge"); (EVar "BUNSHIN_MELEE_POTENCY"); (EBool true)]); (ETup [(EStr "Gust Slash"); (EVar "BUNSHIN_MELEE_POTENCY"); (EBool true)]); (ETup
  [(EStr "Aeolian Edge"); (EVar "BUNSHIN_MELEE_POTENCY"); (EBool true)]); (ETup [(EStr "Armor Crush"); (EVar "BUNSHIN_MELEE_POTENCY"); (EBool true)]);
  (ETup [(EStr "Forked Raiju"); (EVar "BUNSHIN_MELEE_POTENCY"); (EBool true)]); (ETup [(EStr "Fleeting Raiju"); (EVar "BUNSHIN_MELEE_POTENCY"); (EBool
  true)]); (ETup [(EStr "Huraijin"); (EVar "BUNSHIN_MELEE_POTENCY"); (EBool true)]); (ETup [(EStr "Throwing Dagger"); (EVar "BUNSHIN_RANGED_POTENCY");
  (EBool true)]); (ETup [(EStr "Hakke Mujinsatsu"); (EVar "BUNSHIN_AREA_POTENCY"); (EBool false)]); (ETup [(EStr "Death Blossom"); (EVar
  "BUNSHIN_AREA_POTENCY"); (EBool false)])]); SAsg "all_bunshin_follow_ups" (EDict []); SFor ["sk"; "bunshin_potency"; "primary_target_only"] true
  (EVar "bunshin_follow_ups") [SSet "all_bunshin_follow_ups" [(EVar "sk")] (ECall "FollowUp" [] [("skill", (ECall "Skill" [] [("name", (EFmt [(EVar
  "sk"); (EStr " (pet)")])); ("is_GCD", (EBool false)); ("damage_spec", (ECall "DamageSpec" [] [("potency", (EVar "bunshin_potency"));
  ("damage_class", (EConst "DamageClass.PET")); ("pet_job_mod_override", (EInt 100))])); ("status_effect_denylist", (ETup [(EStr
  "Dragon Sight")]))])); ("delay_after_parent_application", (EInt 88)); ("snapshot_buffs_with_parent", (EBool false));
  ("snapshot_debuffs_with_parent", (EBool false)); ("primary_target_only", (EVar "primary_target_only"))])]; SRet (EVar "all_bunshin_follow_ups")].

(** simulator/game_data/class_skills/melee/nin.py lines 91-100: kazematoi *)
Definition nin_m2 : pmethod := mkMethod "kazematoi" []
  [SIf (EVer OLt V70) [SRet ENone] []; SAsg "name" (EStr "Kazematoi"); SAsg "job_resource_settings" (ECall "JobResourceSettings" [] [("max_value",
  (EInt 5)); ("skill_allowlist", (ETup [(EStr "Aeolian Edge"); (EStr "Armor Crush")])); ("add_number_to_conditional", (EBool false))]); SRet (ETup
  [(EVar "name"); (EVar "job_resource_settings")])].

(** simulator/game_data/class_skills/melee/nin.py lines 102-118: __get_huton_follow_up_huton *)
Definition nin_m3 : pmethod := mkMethod "__get_huton_follow_up_huton" []
  [SIf (EVer OGe V70) [SRet ENone] []; SAsg "name" (EStr "Huton (Huton)"); SRet (ECall "FollowUp" [] [("skill", (ECall "Skill" [] [("name", (EVar
  "name")); ("is_GCD", (EBool false)); ("buff_spec", (ECall "StatusEffectSpec" [] [("haste_time_reduction", (EFlt 3 20));
  ("auto_attack_delay_reduction", (EFlt 3 20)); ("duration", (EBin BMul (EInt 60) (EInt 1000))); ("max_duration", (EBin BMul (EInt 60) (EInt
  1000)))]))])); ("delay_after_parent_application", (EInt 0))])].

(** simulator/game_data/class_skills/melee/nin.py lines 120-136: __get_huton_follow_up_hakke *)
Definition nin_m4 : pmethod := mkMethod "__get_huton_follow_up_hakke" []
  [SIf (EVer OGe V70) [SRet ENone] []; SAsg "name" (EStr "Huton (Hakke)"); SRet (ECall "FollowUp" [] [("skill", (ECall "Skill" [] [("name", (EVar
  "name")); ("is_GCD", (EBool false)); ("buff_spec", (ECall "StatusEffectSpec" [] [("haste_time_reduction", (EFlt 3 20));
  ("auto_attack_delay_reduction", (EFlt 3 20)); ("duration", (EBin BMul (EInt 10) (EInt 1000))); ("max_duration", (EBin BMul (EInt 60) (EInt
  1000)))]))])); ("delay_after_parent_application", (EInt 0))])].

(** simulator/game_data/class_skills/melee/nin.py lines 138-152: __get_huton_follow_up_armor_crush *)
Definition nin_m5 : pmethod := mkMethod "__get_huton_follow_up_armor_crush" []
  [SAsg "name" (EStr "Huton (Armor Crush)"); SRet (ECall "FollowUp" [] [("skill", (ECall "Skill" [] [("name", (EVar "name")); ("is_GCD", (EBool
  false)); ("buff_spec", (ECall "StatusEffectSpec" [] [("haste_time_reduction", (EFlt 3 20)); ("auto_attack_delay_reduction", (EFlt 3 20));
  ("duration", (EBin BMul (EInt 30) (EInt 1000))); ("max_duration", (EBin BMul (EInt 60) (EInt 1000)))]))])); ("delay_after_parent_application", (EInt
  0))])].

(** simulator/game_data/class_skills/melee/nin.py lines 155-194: dream_within_a_dream *)
Definition nin_m6 : pmethod := mkMethod "dream_within_a_dream" []
  [SAsg "name" (EStr "Dream Within a Dream"); SAsg "_dream_follow_ups" (ETup [(ECall "FollowUp" [] [("skill", (ECall "Skill" [] [("name", (EVar
  "name")); ("is_GCD", (EBool false)); ("damage_spec", (ECall "DamageSpec" [] [("potency", (EPot (EVar "name")))]))])); ("snapshot_buffs_with_parent",
  (EBool true)); ("snapshot_debuffs_with_parent", (EBool false)); ("delay_after_parent_application", (EInt 700))]); (ECall "FollowUp" [] [("skill",
  (ECall "Skill" [] [("name", (EVar "name")); ("is_GCD", (EBool false)); ("damage_spec", (ECall "DamageSpec" [] [("potency", (EPot (EVar
  "name")))]))])); ("snapshot_buffs_with_parent", (EBool true)); ("snapshot_debuffs_with_parent", (EBool false)); ("delay_after_parent_application",
  (EInt 850))]); (ECall "FollowUp" [] [("skill", (ECall "Skill" [] [("name", (EVar "name")); ("is_GCD", (EBool false)); ("damage_spec", (ECall
  "DamageSpec" [] [("potency", (EPot (EVar "name")))]))])); ("snapshot_buffs_with_parent", (EBool true)); ("snapshot_debuffs_with_parent", (EBool
  false)); ("delay_after_parent_application", (EInt 1000))])]); SRet (ECall "Skill" [] [("name", (EVar "name")); ("is_GCD", (EBool false));
  ("timing_spec", (ESelf "instant_timing_spec")); ("follow_up_skills", (EVar "_dream_follow_ups"))])].

(** simulator/game_data/class_skills/melee/nin.py lines 197-206: auto *)
Definition nin_m7 : pmethod := mkMethod "auto" []
  [SAsg "name" (EStr "Auto"); SRet (ECall "Skill" [] [("name", (EVar "name")); ("is_GCD", (EBool false)); ("timing_spec", (ESelf "auto_timing_spec"));
  ("damage_spec", (ECall "DamageSpec" [] [("potency", (EInt 90)); ("damage_class", (EConst "DamageClass.AUTO")); ("trait_damage_mult_override", (EInt
  1))]))])].

(** simulator/game_data/class_skills/melee/nin.py lines 209-245: doton *)
Definition nin_m8 : pmethod := mkMethod "doton" []
  [SAsg "name" (EStr "Doton (dot)"); SAsg "doton_follow_up" (ECall "FollowUp" [] [("skill", (ECall "Skill" [] [("name", (EVar "name")); ("is_GCD",
  (EBool false)); ("damage_spec", (ECall "DamageSpec" [] [("potency", (EInt 80)); ("damage_class", (EConst "DamageClass.PHYSICAL_DOT"))]))]));
  ("delay_after_parent_application", (EInt 0)); ("dot_duration", (EBin BMul (EInt 18) (EInt 1000))); ("snapshot_buffs_with_parent", (EBool true));
  ("snapshot_debuffs_with_parent", (EBool false))]); SAsg "name" (EStr "Doton"); SRet (ECall "Skill" [] [("name", (EVar "name")); ("is_GCD", (EBool
  true)); ("timing_spec", (EDict [((EConst "SimConsts.DEFAULT_CONDITION"), (ECall "TimingSpec" [] [("base_cast_time", (EInt 0));
  ("gcd_base_recast_time", (EInt 1500)); ("application_delay", (EInt 1300)); ("affected_by_speed_stat", (EBool false)); ("affected_by_haste_buffs",
  (EBool false))])); ((EStr "Ten Chi Jin"), (ECall "TimingSpec" [] [("base_cast_time", (EInt 0)); ("gcd_base_recast_time", (EInt 1000));
  ("application_delay", (EInt 1300)); ("affected_by_speed_stat", (EBool false)); ("affected_by_haste_buffs", (EBool false))]))]));
  ("follow_up_skills", (ETup [(EVar "doton_follow_up")]))])].

(** simulator/game_data/class_skills/melee/nin.py lines 248-272: hollow_nozuchi *)
Definition nin_m9 : pmethod := mkMethod "hollow_nozuchi" []
  [SAsg "doton_hollow_nozuchi_follow_up" (ECall "FollowUp" [] [("skill", (ECall "Skill" [] [("name", (EStr "Doton hollow nozuchi (dot)")); ("is_GCD",
  (EBool false)); ("damage_spec", (ECall "DamageSpec" [] [("potency", (EInt 50)); ("damage_class", (EConst "DamageClass.PHYSICAL_DOT"))]))]));
  ("delay_after_parent_application", (EInt 0)); ("dot_duration", (EBin BMul (EInt 18) (EInt 1000))); ("snapshot_buffs_with_parent", (EBool true));
  ("snapshot_debuffs_with_parent", (EBool false))]); SAsg "name" (EStr "Hollow Nozuchi"); SRet (ECall "Skill" [] [("name", (EVar "name")); ("is_GCD",
  (EBool true)); ("timing_spec", (ECall "TimingSpec" [] [("base_cast_time", (EInt 0)); ("animation_lock", (EInt 650)); ("application_delay", (EInt
  270))])); ("follow_up_skills", (ETup [(EVar "doton_hollow_nozuchi_follow_up")]))])].

(** simulator/game_data/class_skills/melee/nin.py lines 275-298: spinning_edge *)
Definition nin_m10 : pmethod := mkMethod "spinning_edge" []
  [SAsg "name" (EStr "Spinning Edge"); SAsg "spinning_edge_follow_up" (ECall "FollowUp" [] [("skill", (ECall "Skill" [] [("name", (EVar "name"));
  ("damage_spec", (ECall "DamageSpec" [] [("potency", (EPot (EVar "name")))]))])); ("delay_after_parent_application", (EInt 400))]); SRet (ECall
  "Skill" [] [("name", (EVar "name")); ("is_GCD", (EBool true)); ("combo_spec", (ETup [(ECall "ComboSpec" [] [])])); ("timing_spec", (ECall
  "TimingSpec" [] [("base_cast_time", (EInt 0)); ("animation_lock", (EInt 650)); ("application_delay", (EInt 0))])); ("follow_up_skills", (EDict
  [((EConst "SimConsts.DEFAULT_CONDITION"), (ETup [(EVar "spinning_edge_follow_up")])); ((EStr "Bunshin"), (ETup [(EIdx (ESelf
  "__all_bunshin_follow_ups") (EStr "Spinning Edge")); (EVar "spinning_edge_follow_up")]))]))])].

(** simulator/game_data/class_skills/melee/nin.py lines 301-338: gust_slash *)
Definition nin_m11 : pmethod := mkMethod "gust_slash" []
  [SAsg "name" (EStr "Gust Slash"); SAsg "gust_slash_damage_follow_up" (ECall "FollowUp" [(ECall "Skill" [] [("name", (EVar "name")); ("damage_spec",
  (ECall "DamageSpec" [] [("potency", (EPot (EVar "name")))]))])] [("delay_after_parent_application", (EInt 400))]); SAsg
  "gust_slash_damage_no_combo_follow_up" (ECall "FollowUp" [(ECall "Skill" [] [("name", (EVar "name")); ("damage_spec", (ECall "DamageSpec" []
  [("potency", (EPotNC (EVar "name")))]))])] [("delay_after_parent_application", (EInt 400))]); SRet (ECall "Skill" [] [("name", (EVar "name"));
  ("is_GCD", (EBool true)); ("combo_spec", (ETup [(ECall "ComboSpec" [] [("combo_actions", (ETup [(EStr "Spinning Edge")]))])])); ("timing_spec",
  (ECall "TimingSpec" [] [("base_cast_time", (EInt 0)); ("animation_lock", (EInt 650)); ("application_delay", (EInt 0))])); ("follow_up_skills",
  (EDict [((EConst "SimConsts.DEFAULT_CONDITION"), (ETup [(EVar "gust_slash_damage_follow_up")])); ((EStr "No Combo"), (ETup [(EVar
  "gust_slash_damage_no_combo_follow_up")])); ((EStr "Bunshin"), (ETup [(EIdx (ESelf "__all_bunshin_follow_ups") (EStr "Gust Slash")); (EVar
  "gust_slash_damage_follow_up")])); ((EStr "Bunshin, No Combo"), (ETup [(EIdx (ESelf "__all_bunshin_follow_ups") (EStr "Gust Slash")); (EVar
  "gust_slash_damage_no_combo_follow_up")]))]))])].

(** simulator/game_data/class_skills/melee/nin.py lines 341-363: throwing_dagger *)
Definition nin_m12 : pmethod := mkMethod "throwing_dagger" []
  [SAsg "name" (EStr "Throwing Dagger"); SAsg "throwing_dagger_follow_up" (ECall "FollowUp" [] [("skill", (ECall "Skill" [] [("name", (EVar "name"));
  ("damage_spec", (ECall "DamageSpec" [] [("potency", (EPot (EVar "name")))]))])); ("delay_after_parent_application", (EInt 620))]); SRet (ECall
  "Skill" [] [("name", (EVar "name")); ("is_GCD", (EBool true)); ("timing_spec", (ECall "TimingSpec" [] [("base_cast_time", (EInt 0));
  ("animation_lock", (EInt 650)); ("application_delay", (EInt 0))])); ("follow_up_skills", (EDict [((EConst "SimConsts.DEFAULT_CONDITION"), (ETup
  [(EVar "throwing_dagger_follow_up")])); ((EStr "Bunshin"), (ETup [(EVar "throwing_dagger_follow_up"); (EIdx (ESelf "__all_bunshin_follow_ups") (EStr
  "Throwing Dagger"))]))]))])].

(** simulator/game_data/class_skills/melee/nin.py lines 366-400: mug *)
Definition nin_m13 : pmethod := mkMethod "mug" []
  [SIf (EVer OGe V70) [SRet ENone] []; SAsg "name" (EStr "Mug"); SAsg "mug_damage_follow_up" (ECall "FollowUp" [] [("skill", (ECall "Skill" []
  [("name", (EVar "name")); ("damage_spec", (ECall "DamageSpec" [] [("potency", (EPot (EVar "name")))]))])); ("delay_after_parent_application", (EInt
  620))]); SAsg "mug_debuff_follow_up" (ECall "FollowUp" [] [("skill", (ECall "Skill" [] [("name", (EVar "name")); ("debuff_spec", (ECall
  "StatusEffectSpec" [] [("damage_mult", (EFlt 21 20)); ("duration", (EData (EVar "name") (EStr "duration"))); ("is_party_effect", (EBool
  true))]))])); ("delay_after_parent_application", (EInt 0))]); SRet (ECall "Skill" [] [("name", (EVar "name")); ("is_GCD", (EBool false));
  ("timing_spec", (ESelf "instant_timing_spec")); ("follow_up_skills", (EDict [((EConst "SimConsts.DEFAULT_CONDITION"), (ETup [(EVar
  "mug_damage_follow_up"); (EVar "mug_debuff_follow_up")])); ((EStr "Debuff Only"), (ETup [(EVar "mug_debuff_follow_up")]))]));
  ("off_class_default_condition", (EStr "Debuff Only"))])].

(** simulator/game_data/class_skills/melee/nin.py lines 403-446: trick_attack *)
Definition nin_m14 : pmethod := mkMethod "trick_attack" []
  [SIf (ELev OGe K92) [SRet ENone] []; SAsg "name" (EStr "Trick Attack"); SAsg "trick_damage_follow_up" (ECall "FollowUp" [] [("skill", (ECall "Skill"
  [] [("name", (EVar "name")); ("damage_spec", (ECall "DamageSpec" [] [("potency", (EPot (EVar "name")))]))])); ("delay_after_parent_application",
  (EInt 800))]); SAsg "trick_damage_no_pos_follow_up" (ECall "FollowUp" [] [("skill", (ECall "Skill" [] [("name", (EVar "name")); ("damage_spec",
  (ECall "DamageSpec" [] [("potency", (EPotNP (EVar "name")))]))])); ("delay_after_parent_application", (EInt 800))]); SAsg "trick_debuff_follow_up"
  (ECall "FollowUp" [] [("skill", (ECall "Skill" [] [("name", (EVar "name")); ("debuff_spec", (ECall "StatusEffectSpec" [] [("damage_mult", (EFlt 11
  10)); ("duration", (ECall "int" [(EBin BMul (EFlt 1577 100) (EInt 1000))] []))]))])); ("delay_after_parent_application", (EInt 0))]); SRet (ECall
  "Skill" [] [("name", (EVar "name")); ("is_GCD", (EBool false)); ("follow_up_skills", (EDict [((EConst "SimConsts.DEFAULT_CONDITION"), (ETup [(EVar
  "trick_damage_follow_up"); (EVar "trick_debuff_follow_up")])); ((EStr "No Positional"), (ETup [(EVar "trick_damage_no_pos_follow_up"); (EVar
  "trick_debuff_follow_up")]))])); ("timing_spec", (ESelf "instant_timing_spec"))])].

(** simulator/game_data/class_skills/melee/nin.py lines 449-592: aeolian_edge *)
Definition nin_m15 : pmethod := mkMethod "aeolian_edge" []
  [SAsg "name" (EStr "Aeolian Edge"); SAsg "aeolian_edge_follow_up" (ECall "FollowUp" [] [("skill", (ECall "Skill" [] [("name", (EVar "name"));
  ("damage_spec", (ECall "DamageSpec" [] [("potency", (EPot (EVar "name")))]))])); ("delay_after_parent_application", (EInt 540))]); SAsg
  "aeolian_edge_no_combo_follow_up" (ECall "FollowUp" [] [("skill", (ECall "Skill" [] [("name", (EVar "name")); ("damage_spec", (ECall "DamageSpec" []
  [("potency", (EPotNC (EVar "name")))]))])); ("delay_after_parent_application", (EInt 540))]); SAsg "aeolian_edge_no_pos_follow_up" (ECall "FollowUp"
  [] [("skill", (ECall "Skill" [] [("name", (EVar "name")); ("damage_spec", (ECall "DamageSpec" [] [("potency", (EPotNP (EVar "name")))]))]));
  ("delay_after_parent_application", (EInt 540))]); SAsg "aeolian_edge_no_pos_no_combo_follow_up" (ECall "FollowUp" [] [("skill", (ECall "Skill" []
  [("name", (EVar "name")); ("damage_spec", (ECall "DamageSpec" [] [("potency", (EData (EVar "name") (EStr "potency_no_pos_no_combo")))]))]));
  ("delay_after_parent_application", (EInt 540))]); SIf (EVer OGe V70) [SAsg "potency_increment_kaz" (EData (EVar "name") (EStr
  "potency_increment_kaz")); SAsg "aeolian_edge_follow_up_kaz" (ECall "FollowUp" [] [("skill", (ECall "Skill" [] [("name", (EVar "name"));
  ("damage_spec", (ECall "DamageSpec" [(EBin BAdd (EPot (EVar "name")) (EVar "potency_increment_kaz"))] []))])); ("delay_after_parent_application",
  (EInt 540))]); SAsg "aeolian_edge_no_combo_follow_up_kaz" (ECall "FollowUp" [] [("skill", (ECall "Skill" [] [("name", (EVar "name"));
  ("damage_spec", (ECall "DamageSpec" [(EBin BAdd (EPotNC (EVar "name")) (EVar "potency_increment_kaz"))] []))])); ("delay_after_parent_application",
  (EInt 540))]); SAsg "aeolian_edge_no_pos_follow_up_kaz" (ECall "FollowUp" [] [("skill", (ECall "Skill" [] [("name", (EVar "name")); ("damage_spec",
  (ECall "DamageSpec" [(EBin BAdd (EPotNP (EVar "name")) (EVar "potency_increment_kaz"))] []))])); ("delay_after_parent_application", (EInt 540))]);
  SAsg "aeolian_edge_no_pos_no_combo_follow_up_kaz" (ECall "FollowUp" [] [("skill", (ECall "Skill" [] [("name", (EVar "name")); ("damage_spec", (ECall
  "DamageSpec" [(EBin BAdd (EData (EVar "name") (EStr "potency_no_pos_no_combo")) (EVar "potency_increment_kaz"))] []))]));
  ("delay_after_parent_application", (EInt 540))])] []; SAsg "aoelian_follow_ups" (EDict [((EConst "SimConsts.DEFAULT_CONDITION"), (ETup [(EVar
  "aeolian_edge_follow_up")])); ((EStr "No Combo"), (ETup [(EVar "aeolian_edge_no_combo_follow_up")])); ((EStr "No Positional"), (ETup [(EVar
  "aeolian_edge_no_pos_follow_up")])); ((EStr "No Combo, No Positional"), (ETup [(EVar "aeolian_edge_no_pos_no_combo_follow_up")])); ((EStr
  "Bunshin"), (ETup [(EVar "aeolian_edge_follow_up"); (EIdx (ESelf "__all_bunshin_follow_ups") (EStr "Aeolian Edge"))])); ((EStr "Bunshin, No Combo"),
  (ETup [(EVar "aeolian_edge_no_combo_follow_up"); (EIdx (ESelf "__all_bunshin_follow_ups") (EStr "Aeolian Edge"))])); ((EStr
  "Bunshin, No Positional"), (ETup [(EVar "aeolian_edge_no_pos_follow_up"); (EIdx (ESelf "__all_bunshin_follow_ups") (EStr "Aeolian Edge"))])); ((EStr
  "Bunshin, No Combo, No Positional"), (ETup [(EVar "aeolian_edge_no_pos_no_combo_follow_up"); (EIdx (ESelf "__all_bunshin_follow_ups") (EStr
  "Aeolian Edge"))]))]); SIf (EVer OGe V70) [SAsg "aoelian_follow_ups_100_only" (EDict [((EStr "Kazematoi"), (ETup [(EVar
  "aeolian_edge_follow_up_kaz")])); ((EStr "Kazematoi, No Combo"), (ETup [(EVar "aeolian_edge_no_combo_follow_up_kaz")])); ((EStr
  "Kazematoi, No Positional"), (ETup [(EVar "aeolian_edge_no_pos_follow_up_kaz")])); ((EStr "Kazematoi, No Combo, No Positional"), (ETup [(EVar
  "aeolian_edge_no_pos_no_combo_follow_up_kaz")])); ((EStr "Bunshin, Kazematoi"), (ETup [(EVar "aeolian_edge_follow_up_kaz"); (EIdx (ESelf
  "__all_bunshin_follow_ups") (EStr "Aeolian Edge"))])); ((EStr "Bunshin, Kazematoi, No Combo"), (ETup [(EVar "aeolian_edge_no_combo_follow_up_kaz");
  (EIdx (ESelf "__all_bunshin_follow_ups") (EStr "Aeolian Edge"))])); ((EStr "Bunshin, Kazematoi, No Positional"), (ETup [(EVar
  "aeolian_edge_no_pos_follow_up_kaz"); (EIdx (ESelf "__all_bunshin_follow_ups") (EStr "Aeolian Edge"))])); ((EStr
  "Bunshin, Kazematoi, No Combo, No Positional"), (ETup [(EVar "aeolian_edge_no_pos_no_combo_follow_up_kaz"); (EIdx (ESelf "__all_bunshin_follow_ups")
  (EStr "Aeolian Edge"))]))]); SAsg "aoelian_follow_ups" (EBin BOr (EVar "aoelian_follow_ups") (EVar "aoelian_follow_ups_100_only"))] []; SRet (ECall
  "Skill" [] [("name", (EVar "name")); ("is_GCD", (EBool true)); ("combo_spec", (ETup [(ECall "ComboSpec" [] [("combo_actions", (ETup [(EStr
  "Gust Slash")]))])])); ("timing_spec", (ECall "TimingSpec" [] [("base_cast_time", (EInt 0)); ("animation_lock", (EInt 650)); ("application_delay",
  (EInt 0))])); ("job_resource_spec", (EIf (EVer OGe V70) (ETup [(ECall "JobResourceSpec" [] [("name", (EStr "Kazematoi")); ("change", (ENeg (EInt
  1)))])]) (ECall "tuple" [] []))); ("follow_up_skills", (EVar "aoelian_follow_ups"))])].

(** simulator/game_data/class_skills/melee/nin.py lines 595-621: death_blossom *)
Definition nin_m16 : pmethod := mkMethod "death_blossom" []
  [SAsg "name" (EStr "Death Blossom"); SAsg "death_blossom_follow_up" (ECall "FollowUp" [] [("skill", (ECall "Skill" [] [("name", (EVar "name"));
  ("damage_spec", (ECall "DamageSpec" [] [("potency", (EPot (EVar "name")))])); ("has_aoe", (EBool true))])); ("delay_after_parent_application", (EInt
  710)); ("primary_target_only", (EBool false))]); SRet (ECall "Skill" [] [("name", (EVar "name")); ("is_GCD", (EBool true)); ("combo_spec", (ETup
  [(ECall "ComboSpec" [] [])])); ("timing_spec", (ECall "TimingSpec" [] [("base_cast_time", (EInt 0)); ("animation_lock", (EInt 650));
  ("application_delay", (EInt 0))])); ("follow_up_skills", (EDict [((EConst "SimConsts.DEFAULT_CONDITION"), (ETup [(EVar
  "death_blossom_follow_up")])); ((EStr "Bunshin"), (ETup [(EVar "death_blossom_follow_up"); (EIdx (ESelf "__all_bunshin_follow_ups") (EStr
  "Death Blossom"))]))])); ("has_aoe", (EBool true))])].

(** simulator/game_data/class_skills/melee/nin.py lines 624-679: hakke_mujinsatsu *)
Definition nin_m17 : pmethod := mkMethod "hakke_mujinsatsu" []
  [SAsg "name" (EStr "Hakke Mujinsatsu"); SAsg "hakke_follow_up" (ECall "FollowUp" [] [("skill", (ECall "Skill" [] [("name", (EVar "name"));
  ("damage_spec", (ECall "DamageSpec" [] [("potency", (EPot (EVar "name")))])); ("has_aoe", (EBool true))])); ("delay_after_parent_application", (EInt
  620)); ("primary_target_only", (EBool false))]); SAsg "hakke_no_combo_follow_up" (ECall "FollowUp" [] [("skill", (ECall "Skill" [] [("name", (EVar
  "name")); ("damage_spec", (ECall "DamageSpec" [] [("potency", (EPotNC (EVar "name")))])); ("has_aoe", (EBool true))]));
  ("delay_after_parent_application", (EInt 620)); ("primary_target_only", (EBool false))]); SAsg "huton_follow_up_hakke" (EMeth
  "__get_huton_follow_up_hakke" [] []); SRet (ECall "Skill" [] [("name", (EVar "name")); ("is_GCD", (EBool true)); ("combo_spec", (ETup [(ECall
  "ComboSpec" [] [("combo_actions", (ETup [(EStr "Death Blossom")]))])])); ("timing_spec", (ECall "TimingSpec" [] [("base_cast_time", (EInt 0));
  ("animation_lock", (EInt 650)); ("application_delay", (EInt 0))])); ("follow_up_skills", (EDict [((EConst "SimConsts.DEFAULT_CONDITION"), (EIf (EVer
  OGe V70) (ETup [(EVar "hakke_follow_up")]) (ETup [(EVar "huton_follow_up_hakke"); (EVar "hakke_follow_up")]))); ((EStr "No Combo"), (ETup [(EVar
  "hakke_no_combo_follow_up")])); ((EStr "Bunshin"), (EIf (EVer OGe V70) (ETup [(EIdx (ESelf "__all_bunshin_follow_ups") (EStr "Hakke Mujinsatsu"));
  (EVar "hakke_follow_up")]) (ETup [(EVar "huton_follow_up_hakke"); (EIdx (ESelf "__all_bunshin_follow_ups") (EStr "Hakke Mujinsatsu")); (EVar
  "hakke_follow_up")]))); ((EStr "Bunshin, No Combo"), (ETup [(EIdx (ESelf "__all_bunshin_follow_ups") (EStr "Hakke Mujinsatsu")); (EVar
  "hakke_no_combo_follow_up")]))])); ("has_aoe", (EBool true))])].

(** simulator/game_data/class_skills/melee/nin.py lines 682-781: armor_crush *)
Definition nin_m18 : pmethod := mkMethod "armor_crush" []
  [SAsg "name" (EStr "Armor Crush"); SAsg "armor_crush_follow_up" (ECall "FollowUp" [] [("skill", (ECall "Skill" [] [("name", (EVar "name"));
  ("damage_spec", (ECall "DamageSpec" [] [("potency", (EPot (EVar "name")))]))])); ("delay_after_parent_application", (EInt 620))]); SAsg
  "armor_crush_no_combo_follow_up" (ECall "FollowUp" [] [("skill", (ECall "Skill" [] [("name", (EVar "name")); ("damage_spec", (ECall "DamageSpec" []
  [("potency", (EPotNC (EVar "name")))]))])); ("delay_after_parent_application", (EInt 620))]); SAsg "armor_crush_no_pos_follow_up" (ECall "FollowUp"
  [] [("skill", (ECall "Skill" [] [("name", (EVar "name")); ("damage_spec", (ECall "DamageSpec" [] [("potency", (EPotNP (EVar "name")))]))]));
  ("delay_after_parent_application", (EInt 620))]); SAsg "armor_crush_no_pos_no_combo_follow_up" (ECall "FollowUp" [] [("skill", (ECall "Skill" []
  [("name", (EVar "name")); ("damage_spec", (ECall "DamageSpec" [] [("potency", (EData (EVar "name") (EStr "potency_no_pos_no_combo")))]))]));
  ("delay_after_parent_application", (EInt 620))]); SAsg "huton_follow_up_armor_crush" (EMeth "__get_huton_follow_up_armor_crush" [] []); SRet (ECall
  "Skill" [] [("name", (EVar "name")); ("is_GCD", (EBool true)); ("combo_spec", (ETup [(ECall "ComboSpec" [] [("combo_actions", (ETup [(EStr
  "Gust Slash")]))])])); ("timing_spec", (ECall "TimingSpec" [] [("base_cast_time", (EInt 0)); ("animation_lock", (EInt 650)); ("application_delay",
  (EInt 0))])); ("job_resource_spec", (EData (EVar "name") (EStr "job_resource"))); ("follow_up_skills", (EDict [((EConst
  "SimConsts.DEFAULT_CONDITION"), (EIf (EVer OGe V70) (ETup [(EVar "armor_crush_follow_up")]) (ETup [(EVar "armor_crush_follow_up"); (EVar
  "huton_follow_up_armor_crush")]))); ((EStr "No Combo"), (ETup [(EVar "armor_crush_no_combo_follow_up")])); ((EStr "No Positional"), (EIf (EVer OGe
  V70) (ETup [(EVar "armor_crush_no_pos_follow_up")]) (ETup [(EVar "armor_crush_no_pos_follow_up"); (EVar "huton_follow_up_armor_crush")]))); ((EStr
  "No Combo, No Positional"), (ETup [(EVar "armor_crush_no_pos_no_combo_follow_up")])); ((EStr "Bunshin"), (EIf (EVer OGe V70) (ETup [(EVar
  "armor_crush_follow_up"); (EIdx (ESelf "__all_bunshin_follow_ups") (EStr "Armor Crush"))]) (ETup [(EVar "armor_crush_follow_up"); (EVar
  "huton_follow_up_armor_crush"); (EIdx (ESelf "__all_bunshin_follow_ups") (EStr "Armor Crush"))]))); ((EStr "Bunshin, No Combo"), (ETup [(EVar
  "armor_crush_no_combo_follow_up"); (EIdx (ESelf "__all_bunshin_follow_ups") (EStr "Armor Crush"))])); ((EStr "Bunshin, No Positional"), (EIf (EVer
  OGe V70) (ETup [(EVar "armor_crush_no_pos_follow_up"); (EIdx (ESelf "__all_bunshin_follow_ups") (EStr "Armor Crush"))]) (ETup [(EVar
  "armor_crush_no_pos_follow_up"); (EVar "huton_follow_up_armor_crush"); (EIdx (ESelf "__all_bunshin_follow_ups") (EStr "Armor Crush"))]))); ((EStr
  "Bunshin, No Combo, No Positional"), (ETup [(EVar "armor_crush_no_pos_no_combo_follow_up"); (EIdx (ESelf "__all_bunshin_follow_ups") (EStr
  "Armor Crush"))]))]))])].

(** simulator/game_data/class_skills/melee/nin.py lines 784-830: dokumori *)
Definition nin_m19 : pmethod := mkMethod "dokumori" []
  [SIf (EVer OLe V655) [SRet ENone] []; SAsg "name" (EStr "Dokumori"); SAsg "dokumori_debuff_follow_up" (ECall "FollowUp" [] [("skill", (ECall "Skill"
  [] [("name", (EVar "name")); ("debuff_spec", (ECall "StatusEffectSpec" [] [("damage_mult", (EFlt 21 20)); ("duration", (EData (EVar "name") (EStr
  "duration"))); ("is_party_effect", (EBool true))]))])); ("delay_after_parent_application", (EInt 0)); ("primary_target_only", (EBool false))]); SAsg
  "dokumori_damage_follow_up" (ECall "FollowUp" [] [("skill", (ECall "Skill" [] [("name", (EVar "name")); ("damage_spec", (EDict [((EConst
  "SimConsts.DEFAULT_CONDITION"), (ECall "DamageSpec" [] [("potency", (EPot (EVar "name")))]))])); ("has_aoe", (EIf (EVer OGe V71) (EBool true) (EBool
  false))); ("aoe_dropoff", (EIf (EVer OGe V71) (EFlt 1 4) ENone))])); ("delay_after_parent_application", (EInt 1070)); ("primary_target_only", (EBool
  false))]); SRet (ECall "Skill" [] [("name", (EVar "name")); ("is_GCD", (EBool false)); ("timing_spec", (ECall "TimingSpec" [] [("base_cast_time",
  (EInt 0)); ("animation_lock", (EInt 650)); ("application_delay", (EInt 0))])); ("follow_up_skills", (EDict [((EConst "SimConsts.DEFAULT_CONDITION"),
  (ETup [(EVar "dokumori_damage_follow_up"); (EVar "dokumori_debuff_follow_up")])); ((EStr "Debuff Only"), (ETup [(EVar
  "dokumori_debuff_follow_up")]))])); ("off_class_default_condition", (EStr "Debuff Only")); ("has_aoe", (EIf (EVer OGe V71) (EBool true) (EBool
  false)))])].

(** simulator/game_data/class_skills/melee/nin.py lines 833-852: huraijin *)
Definition nin_m20 : pmethod := mkMethod "huraijin" []
  [SIf (EVer OGt V655) [SRet ENone] []; SAsg "huton_follow_up_huton" (EMeth "__get_huton_follow_up_huton" [] []); SAsg "name" (EStr "Huraijin"); SRet
  (ECall "Skill" [] [("name", (EVar "name")); ("is_GCD", (EBool true)); ("damage_spec", (ECall "DamageSpec" [] [("potency", (EPot (EVar "name")))]));
  ("timing_spec", (ECall "TimingSpec" [] [("base_cast_time", (EInt 0)); ("animation_lock", (EInt 650)); ("application_delay", (EInt 800))]));
  ("follow_up_skills", (EDict [((EConst "SimConsts.DEFAULT_CONDITION"), (ETup [(EVar "huton_follow_up_huton")])); ((EStr "Bunshin"), (ETup [(EVar
  "huton_follow_up_huton"); (EIdx (ESelf "__all_bunshin_follow_ups") (EStr "Huraijin"))]))]))])].

(** simulator/game_data/class_skills/melee/nin.py lines 855-865: hellfrog_medium *)
Definition nin_m21 : pmethod := mkMethod "hellfrog_medium" []
  [SAsg "name" (EStr "Hellfrog Medium"); SRet (ECall "Skill" [] [("name", (EVar "name")); ("is_GCD", (EBool false)); ("damage_spec", (ECall
  "DamageSpec" [] [("potency", (EPot (EVar "name")))])); ("timing_spec", (ECall "TimingSpec" [] [("base_cast_time", (EInt 0)); ("animation_lock",
  (EInt 650)); ("application_delay", (EInt 800))])); ("has_aoe", (EBool true))])].

(** simulator/game_data/class_skills/melee/nin.py lines 868-884: bhavacakra *)
Definition nin_m22 : pmethod := mkMethod "bhavacakra" []
  [SAsg "name" (EStr "Bhavacakra"); SRet (ECall "Skill" [] [("name", (EVar "name")); ("is_GCD", (EBool false)); ("damage_spec", (EDict [((EConst
  "SimConsts.DEFAULT_CONDITION"), (ECall "DamageSpec" [] [("potency", (EPot (EVar "name")))])); ((EStr "Meisui"), (ECall "DamageSpec" [] [("potency",
  (EData (EVar "name") (EStr "potency_mesui")))]))])); ("timing_spec", (ECall "TimingSpec" [] [("base_cast_time", (EInt 0)); ("animation_lock", (EInt
  650)); ("application_delay", (EInt 620))]))])].

(** simulator/game_data/class_skills/melee/nin.py lines 887-914: phantom_kamaitachi *)
Definition nin_m23 : pmethod := mkMethod "phantom_kamaitachi" []
  [SAsg "name" (EStr "Phantom Kamaitachi (pet)"); SAsg "phantom_follow_up_damage" (ECall "FollowUp" [] [("skill", (ECall "Skill" [] [("name", (EVar
  "name")); ("damage_spec", (EDict [((EConst "SimConsts.DEFAULT_CONDITION"), (ECall "DamageSpec" [] [("potency", (EPot (EVar "name")));
  ("damage_class", (EConst "DamageClass.PET")); ("pet_job_mod_override", (EInt 100))]))])); ("has_aoe", (EBool true)); ("aoe_dropoff", (EFlt 1 2))]));
  ("delay_after_parent_application", (EInt 1560)); ("snapshot_buffs_with_parent", (EBool true)); ("snapshot_debuffs_with_parent", (EBool true));
  ("primary_target_only", (EBool false))]); SAsg "name" (EStr "Phantom Kamaitachi"); SRet (ECall "Skill" [] [("name", (EVar "name")); ("is_GCD",
  (EBool true)); ("timing_spec", (ECall "TimingSpec" [] [("base_cast_time", (EInt 0))])); ("status_effect_denylist", (ETup [(EStr "Dragon Sight")]));
  ("follow_up_skills", (ETup [(EVar "phantom_follow_up_damage")]))])].

(** simulator/game_data/class_skills/melee/nin.py lines 917-930: forked_raiju *)
Definition nin_m24 : pmethod := mkMethod "forked_raiju" []
  [SAsg "name" (EStr "Forked Raiju"); SRet (ECall "Skill" [] [("name", (EVar "name")); ("is_GCD", (EBool true)); ("damage_spec", (ECall "DamageSpec"
  [] [("potency", (EPot (EVar "name")))])); ("timing_spec", (ECall "TimingSpec" [] [("base_cast_time", (EInt 0)); ("animation_lock", (EInt 650));
  ("application_delay", (EInt 620))])); ("follow_up_skills", (EDict [((EConst "SimConsts.DEFAULT_CONDITION"), (ECall "tuple" [] [])); ((EStr
  "Bunshin"), (ETup [(EIdx (ESelf "__all_bunshin_follow_ups") (EStr "Forked Raiju"))]))]))])].

(** simulator/game_data/class_skills/melee/nin.py lines 933-946: fleeting_raiju *)
Definition nin_m25 : pmethod := mkMethod "fleeting_raiju" []
  [SAsg "name" (EStr "Fleeting Raiju"); SRet (ECall "Skill" [] [("name", (EVar "name")); ("is_GCD", (EBool true)); ("damage_spec", (ECall "DamageSpec"
  [] [("potency", (EPot (EVar "name")))])); ("timing_spec", (ECall "TimingSpec" [] [("base_cast_time", (EInt 0)); ("animation_lock", (EInt 650));
  ("application_delay", (EInt 760))])); ("follow_up_skills", (EDict [((EConst "SimConsts.DEFAULT_CONDITION"), (ECall "tuple" [] [])); ((EStr
  "Bunshin"), (ETup [(EIdx (ESelf "__all_bunshin_follow_ups") (EStr "Fleeting Raiju"))]))]))])].

(** simulator/game_data/class_skills/melee/nin.py lines 949-971: fuma_shuriken *)
Definition nin_m26 : pmethod := mkMethod "fuma_shuriken" []
  [SAsg "name" (EStr "Fuma Shuriken"); SRet (ECall "Skill" [] [("name", (EVar "name")); ("is_GCD", (EBool true)); ("damage_spec", (ECall "DamageSpec"
  [] [("potency", (EPot (EVar "name")))])); ("timing_spec", (EDict [((EConst "SimConsts.DEFAULT_CONDITION"), (ECall "TimingSpec" []
  [("base_cast_time", (EInt 0)); ("gcd_base_recast_time", (EInt 1500)); ("application_delay", (EInt 890)); ("affected_by_speed_stat", (EBool false));
  ("affected_by_haste_buffs", (EBool false))])); ((EStr "Ten Chi Jin"), (ECall "TimingSpec" [] [("base_cast_time", (EInt 0)); ("gcd_base_recast_time",
  (EInt 1000)); ("application_delay", (EInt 890)); ("affected_by_speed_stat", (EBool false)); ("affected_by_haste_buffs", (EBool false))]))]))])].

(** simulator/game_data/class_skills/melee/nin.py lines 974-996: katon *)
Definition nin_m27 : pmethod := mkMethod "katon" []
  [SAsg "name" (EStr "Katon"); SRet (ECall "Skill" [] [("name", (EVar "name")); ("is_GCD", (EBool true)); ("damage_spec", (ECall "DamageSpec" []
  [("potency", (EPot (EVar "name")))])); ("timing_spec", (EDict [((EConst "SimConsts.DEFAULT_CONDITION"), (ECall "TimingSpec" [] [("base_cast_time",
  (EInt 0)); ("gcd_base_recast_time", (EInt 1500)); ("application_delay", (EInt 940)); ("affected_by_speed_stat", (EBool false));
  ("affected_by_haste_buffs", (EBool false))])); ((EStr "Ten Chi Jin"), (ECall "TimingSpec" [] [("base_cast_time", (EInt 0)); ("gcd_base_recast_time",
  (EInt 1000)); ("application_delay", (EInt 940)); ("affected_by_speed_stat", (EBool false)); ("affected_by_haste_buffs", (EBool false))]))]))])].

(** simulator/game_data/class_skills/melee/nin.py lines 999-1021: raiton *)
Definition nin_m28 : pmethod := mkMethod "raiton" []
  [SAsg "name" (EStr "Raiton"); SRet (ECall "Skill" [] [("name", (EVar "name")); ("is_GCD", (EBool true)); ("damage_spec", (ECall "DamageSpec" []
  [("potency", (EPot (EVar "name")))])); ("timing_spec", (EDict [((EConst "SimConsts.DEFAULT_CONDITION"), (ECall "TimingSpec" [] [("base_cast_time",
  (EInt 0)); ("gcd_base_recast_time", (EInt 1500)); ("application_delay", (EInt 710)); ("affected_by_speed_stat", (EBool false));
  ("affected_by_haste_buffs", (EBool false))])); ((EStr "Ten Chi Jin"), (ECall "TimingSpec" [] [("base_cast_time", (EInt 0)); ("gcd_base_recast_time",
  (EInt 1000)); ("application_delay", (EInt 710)); ("affected_by_speed_stat", (EBool false)); ("affected_by_haste_buffs", (EBool false))]))]))])].

(** simulator/game_data/class_skills/melee/nin.py lines 1024-1046: hyoton *)
Definition nin_m29 : pmethod := mkMethod "hyoton" []
  [SAsg "name" (EStr "Hyoton"); SRet (ECall "Skill" [] [("name", (EVar "name")); ("is_GCD", (EBool true)); ("damage_spec", (ECall "DamageSpec" []
  [("potency", (EPot (EVar "name")))])); ("timing_spec", (EDict [((EConst "SimConsts.DEFAULT_CONDITION"), (ECall "TimingSpec" [] [("base_cast_time",
  (EInt 0)); ("gcd_base_recast_time", (EInt 1500)); ("application_delay", (EInt 1160)); ("affected_by_speed_stat", (EBool false));
  ("affected_by_haste_buffs", (EBool false))])); ((EStr "Ten Chi Jin"), (ECall "TimingSpec" [] [("base_cast_time", (EInt 0)); ("gcd_base_recast_time",
  (EInt 1000)); ("application_delay", (EInt 1160)); ("affected_by_speed_stat", (EBool false)); ("affected_by_haste_buffs", (EBool false))]))]))])].

(** simulator/game_data/class_skills/melee/nin.py lines 1049-1076: huton *)
Definition nin_m30 : pmethod := mkMethod "huton" []
  [SAsg "name" (EStr "Huton"); SRet (ECall "Skill" [] [("name", (EVar "name")); ("is_GCD", (EBool true)); ("damage_spec", (EData (EVar "name") (EStr
  "damage_spec"))); ("timing_spec", (EDict [((EConst "SimConsts.DEFAULT_CONDITION"), (ECall "TimingSpec" [] [("base_cast_time", (EInt 0));
  ("gcd_base_recast_time", (EInt 1500)); ("application_delay", (EInt 0)); ("affected_by_speed_stat", (EBool false)); ("affected_by_haste_buffs",
  (EBool false))])); ((EStr "Ten Chi Jin"), (ECall "TimingSpec" [] [("base_cast_time", (EInt 0)); ("gcd_base_recast_time", (EInt 1000));
  ("application_delay", (EInt 0)); ("affected_by_speed_stat", (EBool false)); ("affected_by_haste_buffs", (EBool false))]))])); ("follow_up_skills",
  (EIf (EVer OEq V655) (ETup [(EMeth "__get_huton_follow_up_huton" [] [])]) (ECall "tuple" [] [])))])].

(** simulator/game_data/class_skills/melee/nin.py lines 1079-1102: suiton *)
Definition nin_m31 : pmethod := mkMethod "suiton" []
  [SAsg "name" (EStr "Suiton"); SRet (ECall "Skill" [] [("name", (EVar "name")); ("is_GCD", (EBool true)); ("damage_spec", (ECall "DamageSpec" []
  [("potency", (EPot (EVar "name")))])); ("timing_spec", (EDict [((EConst "SimConsts.DEFAULT_CONDITION"), (ECall "TimingSpec" [] [("base_cast_time",
  (EInt 0)); ("gcd_base_recast_time", (EInt 1500)); ("application_delay", (EInt 980)); ("affected_by_speed_stat", (EBool false));
  ("affected_by_haste_buffs", (EBool false))])); ((EStr "Ten Chi Jin"), (ECall "TimingSpec" [] [("base_cast_time", (EInt 0)); ("gcd_base_recast_time",
  (EInt 1000)); ("application_delay", (EInt 980)); ("affected_by_speed_stat", (EBool false)); ("affected_by_haste_buffs", (EBool false))]))]))])].

(** simulator/game_data/class_skills/melee/nin.py lines 1105-1118: goka_mekkyaku *)
Definition nin_m32 : pmethod := mkMethod "goka_mekkyaku" []
  [SAsg "name" (EStr "Goka Mekkyaku"); SRet (ECall "Skill" [] [("name", (EVar "name")); ("is_GCD", (EBool true)); ("damage_spec", (ECall "DamageSpec"
  [] [("potency", (EPot (EVar "name")))])); ("timing_spec", (ECall "TimingSpec" [] [("base_cast_time", (EInt 0)); ("gcd_base_recast_time", (EInt
  1500)); ("application_delay", (EInt 760)); ("affected_by_speed_stat", (EBool false)); ("affected_by_haste_buffs", (EBool false))]))])].

(** simulator/game_data/class_skills/melee/nin.py lines 1121-1134: hyosho_ranryu *)
Definition nin_m33 : pmethod := mkMethod "hyosho_ranryu" []
  [SAsg "name" (EStr "Hyosho Ranryu"); SRet (ECall "Skill" [] [("name", (EVar "name")); ("is_GCD", (EBool true)); ("damage_spec", (ECall "DamageSpec"
  [] [("potency", (EPot (EVar "name")))])); ("timing_spec", (ECall "TimingSpec" [] [("base_cast_time", (EInt 0)); ("gcd_base_recast_time", (EInt
  1500)); ("application_delay", (EInt 620)); ("affected_by_speed_stat", (EBool false)); ("affected_by_haste_buffs", (EBool false))]))])].

(** simulator/game_data/class_skills/melee/nin.py lines 1137-1149: bunshin *)
Definition nin_m34 : pmethod := mkMethod "bunshin" []
  [SAsg "name" (EStr "Bunshin"); SRet (ECall "Skill" [] [("name", (EVar "name")); ("is_GCD", (EBool false)); ("timing_spec", (ESelf
  "instant_timing_spec")); ("buff_spec", (ECall "StatusEffectSpec" [] [("add_to_skill_modifier_condition", (EBool true)); ("num_uses", (EInt 5));
  ("duration", (ECall "int" [(EBin BMul (EFlt 307 10) (EInt 1000))] [])); ("skill_allowlist", (EData (EVar "name") (EStr "allowlist")))]))])].

(** simulator/game_data/class_skills/melee/nin.py lines 1152-1167: ten_chi_jin *)
Definition nin_m35 : pmethod := mkMethod "ten_chi_jin" []
  [SAsg "name" (EStr "Ten Chi Jin"); SRet (ECall "Skill" [] [("name", (EVar "name")); ("is_GCD", (EBool false)); ("timing_spec", (ESelf
  "instant_timing_spec")); ("buff_spec", (ECall "StatusEffectSpec" [] [("add_to_skill_modifier_condition", (EBool true)); ("num_uses", (EInt 3));
  ("duration", (EInt 6000)); ("skill_allowlist", (ESelf "__ninjutsus"))])); ("channeling_spec", (ECall "ChannelingSpec" [] [("duration", (EInt 6000));
  ("skill_allowlist", (ESelf "__ninjutsus")); ("num_uses", (EInt 3))]))])].

(** simulator/game_data/class_skills/melee/nin.py lines 1170-1182: meisui *)
Definition nin_m36 : pmethod := mkMethod "meisui" []
  [SAsg "name" (EStr "Meisui"); SRet (ECall "Skill" [] [("name", (EVar "name")); ("is_GCD", (EBool false)); ("timing_spec", (ESelf
  "instant_timing_spec")); ("buff_spec", (ECall "StatusEffectSpec" [] [("add_to_skill_modifier_condition", (EBool true)); ("num_uses", (EInt 1));
  ("duration", (EBin BMul (EInt 30) (EInt 1000))); ("skill_allowlist", (EData (EVar "name") (EStr "allowlist")))]))])].

(** simulator/game_data/class_skills/melee/nin.py lines 1185-1217: kunais_bane *)
Definition nin_m37 : pmethod := mkMethod "kunais_bane" []
  [SIf (ELev OLt K92) [SRet ENone] []; SAsg "name" (EStr "Kunai's Bane"); SAsg "kunai_damage_follow_up" (ECall "FollowUp" [] [("skill", (ECall "Skill"
  [] [("name", (EVar "name")); ("damage_spec", (ECall "DamageSpec" [] [("potency", (EPot (EVar "name")))])); ("has_aoe", (EBool true))]));
  ("delay_after_parent_application", (EInt 1290)); ("primary_target_only", (EBool false))]); SAsg "kunai_debuff_follow_up" (ECall "FollowUp" []
  [("skill", (ECall "Skill" [] [("name", (EVar "name")); ("debuff_spec", (ECall "StatusEffectSpec" [] [("damage_mult", (EFlt 11 10)); ("duration",
  (EData (EVar "name") (EStr "duration")))]))])); ("delay_after_parent_application", (EInt 0)); ("primary_target_only", (EBool false))]); SRet (ECall
  "Skill" [] [("name", (EVar "name")); ("is_GCD", (EBool false)); ("timing_spec", (ECall "TimingSpec" [] [("base_cast_time", (EInt 0));
  ("animation_lock", (EInt 650)); ("application_delay", (EInt 0))])); ("follow_up_skills", (ETup [(EVar "kunai_damage_follow_up"); (EVar
  "kunai_debuff_follow_up")])); ("has_aoe", (EBool true))])].

(** simulator/game_data/class_skills/melee/nin.py lines 1220-1231: deathfrog_medium *)
Definition nin_m38 : pmethod := mkMethod "deathfrog_medium" []
  [SIf (ELev OLt K96) [SRet ENone] []; SAsg "name" (EStr "Deathfrog Medium"); SRet (ECall "Skill" [] [("name", (EVar "name")); ("is_GCD", (EBool
  false)); ("damage_spec", (ECall "DamageSpec" [] [("potency", (EPot (EVar "name")))])); ("timing_spec", (ECall "TimingSpec" [] [("base_cast_time",
  (EInt 0)); ("animation_lock", (EInt 650)); ("application_delay", (EInt 800))]))])].

(** simulator/game_data/class_skills/melee/nin.py lines 1234-1252: zesho_meppo *)
Definition nin_m39 : pmethod := mkMethod "zesho_meppo" []
  [SIf (ELev OLt K96) [SRet ENone] []; SAsg "name" (EStr "Zesho Meppo"); SRet (ECall "Skill" [] [("name", (EVar "name")); ("is_GCD", (EBool false));
  ("damage_spec", (EDict [((EConst "SimConsts.DEFAULT_CONDITION"), (ECall "DamageSpec" [] [("potency", (EPot (EVar "name")))])); ((EStr "Meisui"),
  (ECall "DamageSpec" [] [("potency", (EData (EVar "name") (EStr "potency_mesui")))]))])); ("timing_spec", (ECall "TimingSpec" [] [("base_cast_time",
  (EInt 0)); ("animation_lock", (EInt 650)); ("application_delay", (EInt 1030))]))])].

(** simulator/game_data/class_skills/melee/nin.py lines 1255-1268: tenri_jindo *)
Definition nin_m40 : pmethod := mkMethod "tenri_jindo" []
  [SIf (ELev OLt K100) [SRet ENone] []; SAsg "name" (EStr "Tenri Jindo"); SRet (ECall "Skill" [] [("name", (EVar "name")); ("is_GCD", (EBool false));
  ("damage_spec", (ECall "DamageSpec" [] [("potency", (EPot (EVar "name")))])); ("timing_spec", (ECall "TimingSpec" [] [("base_cast_time", (EInt 0));
  ("animation_lock", (EInt 650)); ("application_delay", (EInt 1690))])); ("has_aoe", (EBool true)); ("aoe_dropoff", (EFlt 1 2))])].

(** simulator/game_data/class_skills/melee/nin.py lines 1271-1292: kassatsu *)
Definition nin_m41 : pmethod := mkMethod "kassatsu" []
  [SAsg "name" (EStr "Kassatsu"); SRet (ECall "Skill" [] [("name", (EVar "name")); ("is_GCD", (EBool false)); ("timing_spec", (ESelf
  "instant_timing_spec")); ("buff_spec", (ECall "StatusEffectSpec" [] [("add_to_skill_modifier_condition", (EBool true)); ("num_uses", (EInt 1));
  ("duration", (EBin BMul (EInt 15) (EInt 1000))); ("damage_mult", (EFlt 13 10)); ("skill_allowlist", (ETup [(EStr "Fuma Shuriken"); (EStr "Raiton");
  (EStr "Doton"); (EStr "Suiton"); (EStr "Goka Mekkyaku"); (EStr "Huton"); (EStr "Hyosho Ranryu")]))]))])].

(** simulator/game_data/class_skills/melee/nin.py lines 1299-1301: ten *)
Definition nin_m42 : pmethod := mkMethod "ten" []
  [SAsg "name" (EStr "Ten"); SRet (ECall "Skill" [] [("name", (EVar "name")); ("is_GCD", (EBool true)); ("timing_spec", (ESelf
  "__mudra_timing_spec"))])].

(** simulator/game_data/class_skills/melee/nin.py lines 1304-1306: chi *)
Definition nin_m43 : pmethod := mkMethod "chi" []
  [SAsg "name" (EStr "Chi"); SRet (ECall "Skill" [] [("name", (EVar "name")); ("is_GCD", (EBool true)); ("timing_spec", (ESelf
  "__mudra_timing_spec"))])].

(** simulator/game_data/class_skills/melee/nin.py lines 1309-1311: jin *)
Definition nin_m44 : pmethod := mkMethod "jin" []
  [SAsg "name" (EStr "Jin"); SRet (ECall "Skill" [] [("name", (EVar "name")); ("is_GCD", (EBool true)); ("timing_spec", (ESelf
  "__mudra_timing_spec"))])].

(** simulator/game_data/class_skills/melee/nin.py lines 1314-1316: true_north *)
Definition nin_m45 : pmethod := mkMethod "true_north" []
  [SAsg "name" (EStr "True North"); SRet (ECall "Skill" [] [("name", (EVar "name")); ("is_GCD", (EBool false)); ("timing_spec", (ESelf
  "instant_timing_spec"))])].

(** simulator/game_data/class_skills/melee/nin.py lines 1319-1321: hide *)
Definition nin_m46 : pmethod := mkMethod "hide" []
  [SAsg "name" (EStr "Hide"); SRet (ECall "Skill" [] [("name", (EVar "name")); ("is_GCD", (EBool false)); ("timing_spec", (ESelf
  "instant_timing_spec"))])].

(** simulator/game_data/class_skills/melee/nin.py lines 21-34: __init__ after super().__init__ *)
Definition nin_init : list stmt :=
  [SAttr "_job_class" (EStr "NIN"); SAttr "__all_bunshin_follow_ups" (EMeth "__get_all_bunshin_follow_ups" [] []); SAttr "__ninjutsus" (ETup [(EStr
  "Fuma Shuriken"); (EStr "Katon"); (EStr "Raiton"); (EStr "Hyoton"); (EStr "Huton"); (EStr "Doton"); (EStr "Suiton")]); SAttr "__mudra_timing_spec"
  (EMeth "__get_mudra_timing_spec" [] [])].

(** simulator/game_data/class_skills/melee/nin.py lines 19-1321: class NinSkills; the decorated methods in the order of [dir] *)
Definition nin_class : pclass := mkClass [] nin_init
  [nin_m0; nin_m1; nin_m2; nin_m3; nin_m4; nin_m5; nin_m6; nin_m7; nin_m8; nin_m9; nin_m10; nin_m11; nin_m12; nin_m13; nin_m14; nin_m15; nin_m16;
  nin_m17; nin_m18; nin_m19; nin_m20; nin_m21; nin_m22; nin_m23; nin_m24; nin_m25; nin_m26; nin_m27; nin_m28; nin_m29; nin_m30; nin_m31; nin_m32;
  nin_m33; nin_m34; nin_m35; nin_m36; nin_m37; nin_m38; nin_m39; nin_m40; nin_m41; nin_m42; nin_m43; nin_m44; nin_m45; nin_m46]
  ["aeolian_edge"; "armor_crush"; "auto"; "bhavacakra"; "bunshin"; "chi"; "death_blossom"; "deathfrog_medium"; "dokumori"; "doton";
  "dream_within_a_dream"; "fleeting_raiju"; "forked_raiju"; "fuma_shuriken"; "goka_mekkyaku"; "gust_slash"; "hakke_mujinsatsu"; "hellfrog_medium";
  "hide"; "hollow_nozuchi"; "huraijin"; "huton"; "hyosho_ranryu"; "hyoton"; "jin"; "kassatsu"; "katon"; "kunais_bane"; "meisui"; "mug";
  "phantom_kamaitachi"; "raiton"; "spinning_edge"; "suiton"; "ten"; "ten_chi_jin"; "tenri_jindo"; "throwing_dagger"; "trick_attack"; "true_north";
  "zesho_meppo"]
  ["kazematoi"]
  nin_data.
