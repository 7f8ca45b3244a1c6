(** * PLD: the shipped skill definitions.

    Generated by tools/gen_game_data.py from
    simulator/game_data/class_skills/tank/pld.py and simulator/game_data/class_skills/tank/pld_data.py. *)

From Coq Require Import ZArith List String.
From Verif Require Import Py.
Import ListNotations.
Open Scope string_scope.
Open Scope Z_scope.

(** simulator/game_data/class_skills/tank/pld_data.py lines 8-127, in dict-literal order *)
Definition pld_data : data_table := [
  ("Fast Blade", [(90, [("potency", [(V655, (EInt 200))])]); (100, [("potency", [(V70, (EInt 220))])])]);
  ("Riot Blade", [(90, [("potency", [(V655, (EInt 300))]); ("potency_no_combo", [(V655, (EInt 140))])]); (100, [("potency", [(V70, (EInt 330))]);
  ("potency_no_combo", [(V70, (EInt 170))])])]);
  ("Total Eclipse", [(90, [("potency", [(V655, (EInt 100))])]); (100, [("potency", [(V70, (EInt 100))])])]);
  ("Shield Bash", [(90, [("potency", [(V655, (EInt 100))])]); (100, [("potency", [(V70, (EInt 100))])])]);
  ("Shield Lob", [(90, [("potency", [(V655, (EInt 100))])]); (100, [("potency", [(V70, (EInt 100))])])]);
  ("Prominence", [(90, [("potency", [(V655, (EInt 170))]); ("potency_no_combo", [(V655, (EInt 100))])]); (100, [("potency", [(V70, (EInt 170))]);
  ("potency_no_combo", [(V70, (EInt 100))])])]);
  ("Circle of Scorn (dot)", [(90, [("potency", [(V655, (EInt 30))])]); (100, [("potency", [(V70, (EInt 30))])])]);
  ("Circle of Scorn", [(90, [("potency", [(V655, (EInt 140))])]); (100, [("potency", [(V70, (EInt 140))])])]);
  ("Goring Blade", [(90, [("potency", [(V655, (EInt 700))])]); (100, [("potency", [(V70, (EInt 700))])])]);
  ("Royal Authority", [(90, [("potency", [(V655, (EInt 400))]); ("potency_no_combo", [(V655, (EInt 140))])]); (100, [("potency", [(V70, (EInt 440));
  (V705, (EInt 460))]); ("potency_no_combo", [(V70, (EInt 180)); (V705, (EInt 200))])])]);
  ("Holy Spirit", [(90, [("potency", [(V655, (EInt 350))]); ("potency_divine_might", [(V655, (EInt 450))]); ("potency_req", [(V655, (EInt 650))]);
  ("potency_divine_might_req", [(V655, (EInt 450))])]); (100, [("potency", [(V70, (EInt 370)); (V705, (EInt 400))]); ("potency_divine_might", [(V70,
  (EInt 470)); (V705, (EInt 500))]); ("potency_req", [(V70, (EInt 670)); (V705, (EInt 700))]); ("potency_divine_might_req", [(V70, (EInt 470)); (V705,
  (EInt 500))])])]);
  ("Requiescat", [(90, [("potency", [(V655, (EInt 320))])]); (100, [("potency", [(V70, (EInt 320))])])]);
  ("Holy Circle", [(90, [("potency", [(V655, (EInt 100))]); ("potency_divine_might", [(V655, (EInt 200))]); ("potency_req", [(V655, (EInt 300))]);
  ("potency_divine_might_req", [(V655, (EInt 200))])]); (100, [("potency", [(V70, (EInt 100))]); ("potency_divine_might", [(V70, (EInt 200))]);
  ("potency_req", [(V70, (EInt 300))]); ("potency_divine_might_req", [(V70, (EInt 200))])])]);
  ("Intervene", [(90, [("potency", [(V655, (EInt 150))])]); (100, [("potency", [(V70, (EInt 150))])])]);
  ("Atonement", [(90, [("potency", [(V655, (EInt 400))])]); (100, [("potency", [(V70, (EInt 440)); (V705, (EInt 460))])])]);
  ("Supplication", [(90, [("potency", [(V70, (EInt 420)); (V705, (EInt 460))])]); (100, [("potency", [(V70, (EInt 460)); (V705, (EInt 500))])])]);
  ("Sepulchre", [(90, [("potency", [(V70, (EInt 380)); (V705, (EInt 440))])]); (100, [("potency", [(V70, (EInt 480)); (V705, (EInt 540))])])]);
  ("Confiteor", [(90, [("potency", [(V655, (EInt 420))]); ("potency_req", [(V655, (EInt 920))])]); (100, [("potency", [(V70, (EInt 440)); (V705, (EInt
  500))]); ("potency_req", [(V70, (EInt 940)); (V705, (EInt 1000))])])]);
  ("Expiacion", [(90, [("potency", [(V655, (EInt 450))])]); (100, [("potency", [(V70, (EInt 450))])])]);
  ("Blade of Faith", [(90, [("potency", [(V655, (EInt 220))]); ("potency_req", [(V655, (EInt 720))])]); (100, [("potency", [(V70, (EInt 240)); (V705,
  (EInt 260))]); ("potency_req", [(V70, (EInt 740)); (V705, (EInt 760))])])]);
  ("Blade of Truth", [(90, [("potency", [(V655, (EInt 320))]); ("potency_req", [(V655, (EInt 820))])]); (100, [("potency", [(V70, (EInt 340)); (V705,
  (EInt 380))]); ("potency_req", [(V70, (EInt 840)); (V705, (EInt 880))])])]);
  ("Blade of Valor", [(90, [("potency", [(V655, (EInt 420))]); ("potency_req", [(V655, (EInt 920))])]); (100, [("potency", [(V70, (EInt 440)); (V705,
  (EInt 500))]); ("potency_req", [(V70, (EInt 940)); (V705, (EInt 1000))])])]);
  ("Blade of Honor", [(100, [("potency", [(V70, (EInt 1000))])])]);
  ("Imperator", [(100, [("potency", [(V70, (EInt 580))])])])].

(** simulator/game_data/class_skills/tank/pld.py lines 23-24: get_status_effect_priority *)
Definition pld_m0 : pmethod := mkMethod "get_status_effect_priority" []
  [SRet (ETup [(EStr "Divine Might"); (EStr "Requiescat")])].

(** simulator/game_data/class_skills/tank/pld.py lines 26-30: get_combo_breakers *)
Definition pld_m1 : pmethod := mkMethod "get_combo_breakers" []
  [SAsg "combo_breakers" (ETup [(ETup [(EInt 1); (ETup [(EInt 0)])])]); SRet (EVar "combo_breakers")].

(** simulator/game_data/class_skills/tank/pld.py lines 32-52: __req_charges_follow_up *)
Definition pld_m2 : pmethod := mkMethod "__req_charges_follow_up" []
  [SAsg "name" (EStr "Requiescat"); SRet (ECall "FollowUp" [] [("skill", (ECall "Skill" [] [("name", (EVar "name")); ("buff_spec", (ECall
  "StatusEffectSpec" [] [("add_to_skill_modifier_condition", (EBool true)); ("num_uses", (EInt 4)); ("duration", (EBin BMul (EInt 30) (EInt 1000)));
  ("skill_allowlist", (ETup [(EStr "Holy Spirit"); (EStr "Holy Circle"); (EStr "Confiteor"); (EStr "Blade of Faith"); (EStr "Blade of Truth"); (EStr
  "Blade of Valor")]))]))])); ("delay_after_parent_application", (EInt 0))])].

(** simulator/game_data/class_skills/tank/pld.py lines 54-68: __divine_might_follow_up *)
Definition pld_m3 : pmethod := mkMethod "__divine_might_follow_up" []
  [SRet (ECall "FollowUp" [] [("skill", (ECall "Skill" [] [("name", (EStr "Divine Might")); ("is_GCD", (EBool false)); ("buff_spec", (ECall
  "StatusEffectSpec" [] [("add_to_skill_modifier_condition", (EBool true)); ("num_uses", (EInt 1)); ("duration", (EBin BMul (EInt 30) (EInt 1000)));
  ("skill_allowlist", (ETup [(EStr "Holy Spirit"); (EStr "Holy Circle")]))]))])); ("delay_after_parent_application", (EInt 0));
  ("primary_target_only", (EBool true))])].

(** simulator/game_data/class_skills/tank/pld.py lines 71-80: auto *)
Definition pld_m4 : pmethod := mkMethod "auto" []
  [SAsg "name" (EStr "Auto"); SRet (ECall "Skill" [] [("name", (EVar "name")); ("is_GCD", (EBool false)); ("timing_spec", (ESelf "auto_timing_spec"));
  ("damage_spec", (ECall "DamageSpec" [] [("potency", (EInt 90)); ("damage_class", (EConst "DamageClass.AUTO")); ("trait_damage_mult_override", (EInt
  1))]))])].

(** simulator/game_data/class_skills/tank/pld.py lines 83-93: fast_blade *)
Definition pld_m5 : pmethod := mkMethod "fast_blade" []
  [SAsg "name" (EStr "Fast Blade"); SRet (ECall "Skill" [] [("name", (EVar "name")); ("is_GCD", (EBool true)); ("combo_spec", (ETup [(ECall
  "ComboSpec" [] [])])); ("damage_spec", (ECall "DamageSpec" [] [("potency", (EPot (EVar "name")))])); ("timing_spec", (ECall "TimingSpec" []
  [("base_cast_time", (EInt 0)); ("animation_lock", (EInt 650)); ("application_delay", (EInt 623))]))])].

(** simulator/game_data/class_skills/tank/pld.py lines 96-105: fight_or_flight *)
Definition pld_m6 : pmethod := mkMethod "fight_or_flight" []
  [SAsg "name" (EStr "Fight or Flight"); SRet (ECall "Skill" [] [("name", (EVar "name")); ("is_GCD", (EBool false)); ("buff_spec", (ECall
  "StatusEffectSpec" [] [("duration", (EInt 20000)); ("damage_mult", (EFlt 5 4))])); ("timing_spec", (ECall "TimingSpec" [] [("base_cast_time", (EInt
  0)); ("animation_lock", (EInt 650)); ("application_delay", (EInt 620))]))])].

(** simulator/game_data/class_skills/tank/pld.py lines 108-125: riot_blade *)
Definition pld_m7 : pmethod := mkMethod "riot_blade" []
  [SAsg "name" (EStr "Riot Blade"); SRet (ECall "Skill" [] [("name", (EVar "name")); ("is_GCD", (EBool true)); ("damage_spec", (EDict [((EConst
  "SimConsts.DEFAULT_CONDITION"), (ECall "DamageSpec" [] [("potency", (EPot (EVar "name")))])); ((EStr "No Combo"), (ECall "DamageSpec" []
  [("potency", (EPotNC (EVar "name")))]))])); ("combo_spec", (ETup [(ECall "ComboSpec" [] [("combo_actions", (ETup [(EStr "Fast Blade")]))])]));
  ("timing_spec", (ECall "TimingSpec" [] [("base_cast_time", (EInt 0)); ("animation_lock", (EInt 650)); ("application_delay", (EInt 758))]))])].

(** simulator/game_data/class_skills/tank/pld.py lines 128-139: total_eclipse *)
Definition pld_m8 : pmethod := mkMethod "total_eclipse" []
  [SAsg "name" (EStr "Total Eclipse"); SRet (ECall "Skill" [] [("name", (EVar "name")); ("is_GCD", (EBool true)); ("combo_spec", (ETup [(ECall
  "ComboSpec" [] [])])); ("damage_spec", (ECall "DamageSpec" [] [("potency", (EPot (EVar "name")))])); ("timing_spec", (ECall "TimingSpec" []
  [("base_cast_time", (EInt 0)); ("animation_lock", (EInt 650)); ("application_delay", (EInt 758))])); ("has_aoe", (EBool true))])].

(** simulator/game_data/class_skills/tank/pld.py lines 142-151: shield_bash *)
Definition pld_m9 : pmethod := mkMethod "shield_bash" []
  [SAsg "name" (EStr "Shield Bash"); SRet (ECall "Skill" [] [("name", (EVar "name")); ("is_GCD", (EBool true)); ("damage_spec", (ECall "DamageSpec" []
  [("potency", (EPot (EVar "name")))])); ("timing_spec", (ECall "TimingSpec" [] [("base_cast_time", (EInt 0)); ("animation_lock", (EInt 650));
  ("application_delay", (EInt 446))]))])].

(** simulator/game_data/class_skills/tank/pld.py lines 154-163: shield_lob *)
Definition pld_m10 : pmethod := mkMethod "shield_lob" []
  [SAsg "name" (EStr "Shield Lob"); SRet (ECall "Skill" [] [("name", (EVar "name")); ("is_GCD", (EBool true)); ("damage_spec", (ECall "DamageSpec" []
  [("potency", (EPot (EVar "name")))])); ("timing_spec", (ECall "TimingSpec" [] [("base_cast_time", (EInt 0)); ("animation_lock", (EInt 650));
  ("application_delay", (EInt 889))]))])].

(** simulator/game_data/class_skills/tank/pld.py lines 166-201: prominence *)
Definition pld_m11 : pmethod := mkMethod "prominence" []
  [SAsg "name" (EStr "Prominence"); SAsg "promimence_follow_up" (ECall "FollowUp" [] [("skill", (ECall "Skill" [] [("name", (EVar "name"));
  ("damage_spec", (ECall "DamageSpec" [] [("potency", (EPot (EVar "name")))]))])); ("delay_after_parent_application", (EInt 623));
  ("primary_target_only", (EBool false))]); SAsg "promimence_no_combo_follow_up" (ECall "FollowUp" [] [("skill", (ECall "Skill" [] [("name", (EVar
  "name")); ("damage_spec", (ECall "DamageSpec" [] [("potency", (EPotNC (EVar "name")))]))])); ("delay_after_parent_application", (EInt 623));
  ("primary_target_only", (EBool false))]); SRet (ECall "Skill" [] [("name", (EVar "name")); ("is_GCD", (EBool true)); ("combo_spec", (ETup [(ECall
  "ComboSpec" [] [("combo_actions", (ETup [(EStr "Total Eclipse")]))])])); ("timing_spec", (ECall "TimingSpec" [] [("base_cast_time", (EInt 0));
  ("animation_lock", (EInt 650)); ("application_delay", (EInt 623))])); ("follow_up_skills", (EDict [((EConst "SimConsts.DEFAULT_CONDITION"), (ETup
  [(EVar "promimence_follow_up"); (EMeth "__divine_might_follow_up" [] [])])); ((EStr "No Combo"), (ETup [(EVar
  "promimence_no_combo_follow_up")]))])); ("has_aoe", (EBool true))])].

(** simulator/game_data/class_skills/tank/pld.py lines 204-233: circle_of_scorn *)
Definition pld_m12 : pmethod := mkMethod "circle_of_scorn" []
  [SAsg "name" (EStr "Circle of Scorn (dot)"); SAsg "circle_of_scorn_dot_pld" (ECall "Skill" [] [("name", (EVar "name")); ("is_GCD", (EBool false));
  ("damage_spec", (ECall "DamageSpec" [] [("potency", (EPot (EVar "name"))); ("damage_class", (EConst "DamageClass.PHYSICAL_DOT"))]))]); SAsg "name"
  (EStr "Circle of Scorn"); SRet (ECall "Skill" [] [("name", (EVar "name")); ("is_GCD", (EBool false)); ("timing_spec", (ECall "TimingSpec" []
  [("base_cast_time", (EInt 0)); ("animation_lock", (EInt 650)); ("application_delay", (EInt 1023))])); ("damage_spec", (ECall "DamageSpec" []
  [("potency", (EPot (EVar "name")))])); ("follow_up_skills", (ETup [(ECall "FollowUp" [] [("skill", (EVar "circle_of_scorn_dot_pld"));
  ("delay_after_parent_application", (EInt 0)); ("dot_duration", (EBin BMul (EInt 15) (EInt 1000))); ("snapshot_buffs_with_parent", (EBool true));
  ("snapshot_debuffs_with_parent", (EBool true))])])); ("has_aoe", (EBool true))])].

(** simulator/game_data/class_skills/tank/pld.py lines 236-245: goring_blade *)
Definition pld_m13 : pmethod := mkMethod "goring_blade" []
  [SAsg "name" (EStr "Goring Blade"); SRet (ECall "Skill" [] [("name", (EVar "name")); ("is_GCD", (EBool true)); ("damage_spec", (ECall "DamageSpec"
  [] [("potency", (EPot (EVar "name")))])); ("timing_spec", (ECall "TimingSpec" [] [("base_cast_time", (EInt 0)); ("animation_lock", (EInt 650));
  ("application_delay", (EInt 534))]))])].

(** simulator/game_data/class_skills/tank/pld.py lines 248-269: royal_authority *)
Definition pld_m14 : pmethod := mkMethod "royal_authority" []
  [SAsg "name" (EStr "Royal Authority"); SRet (ECall "Skill" [] [("name", (EVar "name")); ("is_GCD", (EBool true)); ("damage_spec", (EDict [((EConst
  "SimConsts.DEFAULT_CONDITION"), (ECall "DamageSpec" [] [("potency", (EPot (EVar "name")))])); ((EStr "No Combo"), (ECall "DamageSpec" []
  [("potency", (EPotNC (EVar "name")))]))])); ("combo_spec", (ETup [(ECall "ComboSpec" [] [("combo_actions", (ETup [(EStr "Riot Blade")]))])]));
  ("timing_spec", (ECall "TimingSpec" [] [("base_cast_time", (EInt 0)); ("animation_lock", (EInt 650)); ("application_delay", (EInt 578))]));
  ("follow_up_skills", (EDict [((EConst "SimConsts.DEFAULT_CONDITION"), (ETup [(EMeth "__divine_might_follow_up" [] [])])); ((EStr "No Combo"), (ECall
  "tuple" [] []))]))])].

(** simulator/game_data/class_skills/tank/pld.py lines 272-321: holy_spirit *)
Definition pld_m15 : pmethod := mkMethod "holy_spirit" []
  [SAsg "name" (EStr "Holy Spirit"); SRet (ECall "Skill" [] [("name", (EVar "name")); ("is_GCD", (EBool true)); ("damage_spec", (EDict [((EConst
  "SimConsts.DEFAULT_CONDITION"), (ECall "DamageSpec" [] [("potency", (EData (EVar "name") (EStr "potency")))])); ((EStr "Divine Might"), (ECall
  "DamageSpec" [] [("potency", (EData (EVar "name") (EStr "potency_divine_might")))])); ((EStr "Requiescat"), (ECall "DamageSpec" [] [("potency",
  (EData (EVar "name") (EStr "potency_req")))])); ((EStr "Divine Might, Requiescat"), (ECall "DamageSpec" [] [("potency", (EData (EVar "name") (EStr
  "potency_divine_might_req")))]))])); ("timing_spec", (EDict [((EConst "SimConsts.DEFAULT_CONDITION"), (ECall "TimingSpec" [] [("base_cast_time",
  (EInt 1500)); ("animation_lock", (EInt 100)); ("application_delay", (EInt 758)); ("affected_by_speed_stat", (EBool false))])); ((EStr
  "Divine Might"), (ECall "TimingSpec" [] [("base_cast_time", (EInt 0)); ("animation_lock", (EInt 100)); ("application_delay", (EInt 758));
  ("affected_by_speed_stat", (EBool false))])); ((EStr "Requiescat"), (ECall "TimingSpec" [] [("base_cast_time", (EInt 0)); ("animation_lock", (EInt
  100)); ("application_delay", (EInt 758)); ("affected_by_speed_stat", (EBool false))])); ((EStr "Divine Might, Requiescat"), (ECall "TimingSpec" []
  [("base_cast_time", (EInt 0)); ("animation_lock", (EInt 100)); ("application_delay", (EInt 758)); ("affected_by_speed_stat", (EBool
  false))]))]))])].

(** simulator/game_data/class_skills/tank/pld.py lines 324-337: requiescat *)
Definition pld_m16 : pmethod := mkMethod "requiescat" []
  [SIf (ELev OGe K96) [SRet ENone] []; SAsg "name" (EStr "Requiescat"); SRet (ECall "Skill" [] [("name", (EVar "name")); ("is_GCD", (EBool false));
  ("damage_spec", (ECall "DamageSpec" [] [("potency", (EPot (EVar "name")))])); ("timing_spec", (ECall "TimingSpec" [] [("base_cast_time", (EInt 0));
  ("animation_lock", (EInt 650)); ("application_delay", (EInt 623))])); ("follow_up_skills", (ETup [(EMeth "__req_charges_follow_up" [] [])]))])].

(** simulator/game_data/class_skills/tank/pld.py lines 340-369: imperator *)
Definition pld_m17 : pmethod := mkMethod "imperator" []
  [SIf (ELev OLt K96) [SRet ENone] []; SAsg "name" (EStr "Imperator"); SAsg "imperator_damage_follow_up" (ECall "FollowUp" [] [("skill", (ECall
  "Skill" [] [("name", (EVar "name")); ("damage_spec", (EDict [((EConst "SimConsts.DEFAULT_CONDITION"), (ECall "DamageSpec" [] [("potency", (EPot
  (EVar "name")))]))])); ("has_aoe", (EBool true)); ("aoe_dropoff", (EFlt 1 2))])); ("delay_after_parent_application", (EInt 1290));
  ("primary_target_only", (EBool false))]); SRet (ECall "Skill" [] [("name", (EVar "name")); ("is_GCD", (EBool false)); ("timing_spec", (ECall
  "TimingSpec" [] [("base_cast_time", (EInt 0)); ("animation_lock", (EInt 650)); ("application_delay", (EInt 0))])); ("follow_up_skills", (ETup [(EVar
  "imperator_damage_follow_up"); (EMeth "__req_charges_follow_up" [] [])]))])].

(** simulator/game_data/class_skills/tank/pld.py lines 372-422: holy_circle *)
Definition pld_m18 : pmethod := mkMethod "holy_circle" []
  [SAsg "name" (EStr "Holy Circle"); SRet (ECall "Skill" [] [("name", (EVar "name")); ("is_GCD", (EBool true)); ("has_aoe", (EBool true));
  ("damage_spec", (EDict [((EConst "SimConsts.DEFAULT_CONDITION"), (ECall "DamageSpec" [] [("potency", (EData (EVar "name") (EStr "potency")))]));
  ((EStr "Divine Might"), (ECall "DamageSpec" [] [("potency", (EData (EVar "name") (EStr "potency_divine_might")))])); ((EStr "Requiescat"), (ECall
  "DamageSpec" [] [("potency", (EData (EVar "name") (EStr "potency_req")))])); ((EStr "Divine Might, Requiescat"), (ECall "DamageSpec" [] [("potency",
  (EData (EVar "name") (EStr "potency_divine_might_req")))]))])); ("timing_spec", (EDict [((EConst "SimConsts.DEFAULT_CONDITION"), (ECall "TimingSpec"
  [] [("base_cast_time", (EInt 1500)); ("animation_lock", (EInt 100)); ("application_delay", (EInt 623)); ("affected_by_speed_stat", (EBool
  false))])); ((EStr "Divine Might"), (ECall "TimingSpec" [] [("base_cast_time", (EInt 0)); ("animation_lock", (EInt 100)); ("application_delay",
  (EInt 623)); ("affected_by_speed_stat", (EBool false))])); ((EStr "Requiescat"), (ECall "TimingSpec" [] [("base_cast_time", (EInt 0));
  ("animation_lock", (EInt 100)); ("application_delay", (EInt 623)); ("affected_by_speed_stat", (EBool false))])); ((EStr "Divine Might, Requiescat"),
  (ECall "TimingSpec" [] [("base_cast_time", (EInt 0)); ("animation_lock", (EInt 100)); ("application_delay", (EInt 623)); ("affected_by_speed_stat",
  (EBool false))]))]))])].

(** simulator/game_data/class_skills/tank/pld.py lines 425-434: intervene *)
Definition pld_m19 : pmethod := mkMethod "intervene" []
  [SAsg "name" (EStr "Intervene"); SRet (ECall "Skill" [] [("name", (EVar "name")); ("is_GCD", (EBool false)); ("damage_spec", (ECall "DamageSpec" []
  [("potency", (EPot (EVar "name")))])); ("timing_spec", (ECall "TimingSpec" [] [("base_cast_time", (EInt 0)); ("animation_lock", (EInt 650));
  ("application_delay", (EInt 578))]))])].

(** simulator/game_data/class_skills/tank/pld.py lines 437-446: atonement *)
Definition pld_m20 : pmethod := mkMethod "atonement" []
  [SAsg "name" (EStr "Atonement"); SRet (ECall "Skill" [] [("name", (EVar "name")); ("is_GCD", (EBool true)); ("damage_spec", (ECall "DamageSpec" []
  [("potency", (EPot (EVar "name")))])); ("timing_spec", (ECall "TimingSpec" [] [("base_cast_time", (EInt 0)); ("animation_lock", (EInt 650));
  ("application_delay", (EInt 1293))]))])].

(** simulator/game_data/class_skills/tank/pld.py lines 449-460: supplication *)
Definition pld_m21 : pmethod := mkMethod "supplication" []
  [SIf (EVer OLt V70) [SRet ENone] []; SAsg "name" (EStr "Supplication"); SRet (ECall "Skill" [] [("name", (EVar "name")); ("is_GCD", (EBool true));
  ("damage_spec", (ECall "DamageSpec" [] [("potency", (EPot (EVar "name")))])); ("timing_spec", (ECall "TimingSpec" [] [("base_cast_time", (EInt 0));
  ("animation_lock", (EInt 650)); ("application_delay", (EInt 1160))]))])].

(** simulator/game_data/class_skills/tank/pld.py lines 463-474: sepulchre *)
Definition pld_m22 : pmethod := mkMethod "sepulchre" []
  [SIf (EVer OLt V70) [SRet ENone] []; SAsg "name" (EStr "Sepulchre"); SRet (ECall "Skill" [] [("name", (EVar "name")); ("is_GCD", (EBool true));
  ("damage_spec", (ECall "DamageSpec" [] [("potency", (EPot (EVar "name")))])); ("timing_spec", (ECall "TimingSpec" [] [("base_cast_time", (EInt 0));
  ("animation_lock", (EInt 650)); ("application_delay", (EInt 1290))]))])].

(** simulator/game_data/class_skills/tank/pld.py lines 477-496: confiteor *)
Definition pld_m23 : pmethod := mkMethod "confiteor" []
  [SAsg "name" (EStr "Confiteor"); SRet (ECall "Skill" [] [("name", (EVar "name")); ("is_GCD", (EBool true)); ("combo_spec", (ETup [(ECall "ComboSpec"
  [] [("combo_group", (EInt 1))])])); ("damage_spec", (EDict [((EConst "SimConsts.DEFAULT_CONDITION"), (ECall "DamageSpec" [] [("potency", (EData
  (EVar "name") (EStr "potency")))])); ((EStr "Requiescat"), (ECall "DamageSpec" [] [("potency", (EData (EVar "name") (EStr "potency_req")))]))]));
  ("timing_spec", (ECall "TimingSpec" [] [("base_cast_time", (EInt 0)); ("animation_lock", (EInt 650)); ("application_delay", (EInt 623))]));
  ("has_aoe", (EBool true)); ("aoe_dropoff", (EFlt 1 2))])].

(** simulator/game_data/class_skills/tank/pld.py lines 499-514: expiacion *)
Definition pld_m24 : pmethod := mkMethod "expiacion" []
  [SAsg "name" (EStr "Expiacion"); SRet (ECall "Skill" [] [("name", (EVar "name")); ("is_GCD", (EBool false)); ("damage_spec", (EDict [((EConst
  "SimConsts.DEFAULT_CONDITION"), (ECall "DamageSpec" [] [("potency", (EPot (EVar "name")))]))])); ("timing_spec", (ECall "TimingSpec" []
  [("base_cast_time", (EInt 0)); ("animation_lock", (EInt 650)); ("application_delay", (EInt 357))])); ("has_aoe", (EBool true)); ("aoe_dropoff",
  (EFlt 3 5))])].

(** simulator/game_data/class_skills/tank/pld.py lines 517-536: blade_of_faith *)
Definition pld_m25 : pmethod := mkMethod "blade_of_faith" []
  [SAsg "name" (EStr "Blade of Faith"); SRet (ECall "Skill" [] [("name", (EVar "name")); ("is_GCD", (EBool true)); ("combo_spec", (ETup [(ECall
  "ComboSpec" [] [("combo_group", (EInt 1)); ("combo_actions", (ETup [(EStr "Confiteor")]))])])); ("damage_spec", (EDict [((EConst
  "SimConsts.DEFAULT_CONDITION"), (ECall "DamageSpec" [] [("potency", (EData (EVar "name") (EStr "potency")))])); ((EStr "Requiescat"), (ECall
  "DamageSpec" [] [("potency", (EData (EVar "name") (EStr "potency_req")))]))])); ("timing_spec", (ECall "TimingSpec" [] [("base_cast_time", (EInt
  0)); ("animation_lock", (EInt 650)); ("application_delay", (EInt 666))])); ("has_aoe", (EBool true)); ("aoe_dropoff", (EFlt 1 2))])].

(** simulator/game_data/class_skills/tank/pld.py lines 539-558: blade_of_truth *)
Definition pld_m26 : pmethod := mkMethod "blade_of_truth" []
  [SAsg "name" (EStr "Blade of Truth"); SRet (ECall "Skill" [] [("name", (EVar "name")); ("is_GCD", (EBool true)); ("combo_spec", (ETup [(ECall
  "ComboSpec" [] [("combo_group", (EInt 1)); ("combo_actions", (ETup [(EStr "Blade of Faith")]))])])); ("damage_spec", (EDict [((EConst
  "SimConsts.DEFAULT_CONDITION"), (ECall "DamageSpec" [] [("potency", (EData (EVar "name") (EStr "potency")))])); ((EStr "Requiescat"), (ECall
  "DamageSpec" [] [("potency", (EData (EVar "name") (EStr "potency_req")))]))])); ("timing_spec", (ECall "TimingSpec" [] [("base_cast_time", (EInt
  0)); ("animation_lock", (EInt 650)); ("application_delay", (EInt 891))])); ("has_aoe", (EBool true)); ("aoe_dropoff", (EFlt 1 2))])].

(** simulator/game_data/class_skills/tank/pld.py lines 561-580: blade_of_valor *)
Definition pld_m27 : pmethod := mkMethod "blade_of_valor" []
  [SAsg "name" (EStr "Blade of Valor"); SRet (ECall "Skill" [] [("name", (EVar "name")); ("is_GCD", (EBool true)); ("combo_spec", (ETup [(ECall
  "ComboSpec" [] [("combo_group", (EInt 1)); ("combo_actions", (ETup [(EStr "Blade of Truth")]))])])); ("damage_spec", (EDict [((EConst
  "SimConsts.DEFAULT_CONDITION"), (ECall "DamageSpec" [] [("potency", (EData (EVar "name") (EStr "potency")))])); ((EStr "Requiescat"), (ECall
  "DamageSpec" [] [("potency", (EData (EVar "name") (EStr "potency_req")))]))])); ("timing_spec", (ECall "TimingSpec" [] [("base_cast_time", (EInt
  0)); ("animation_lock", (EInt 650)); ("application_delay", (EInt 891))])); ("has_aoe", (EBool true)); ("aoe_dropoff", (EFlt 1 2))])].

(** simulator/game_data/class_skills/tank/pld.py lines 583-600: blade_of_honor *)
Definition pld_m28 : pmethod := mkMethod "blade_of_honor" []
  [SIf (ELev OLt K100) [SRet ENone] []; SAsg "name" (EStr "Blade of Honor"); SRet (ECall "Skill" [] [("name", (EVar "name")); ("is_GCD", (EBool
  false)); ("damage_spec", (EDict [((EConst "SimConsts.DEFAULT_CONDITION"), (ECall "DamageSpec" [] [("potency", (EPot (EVar "name")))]))]));
  ("timing_spec", (ECall "TimingSpec" [] [("base_cast_time", (EInt 0)); ("animation_lock", (EInt 650)); ("application_delay", (EInt 1160))]));
  ("has_aoe", (EBool true)); ("aoe_dropoff", (EFlt 1 2))])].

(** simulator/game_data/class_skills/tank/pld.py lines 607-614: passage_of_arms *)
Definition pld_m29 : pmethod := mkMethod "passage_of_arms" []
  [SAsg "name" (EStr "Passage of Arms"); SRet (ECall "Skill" [] [("name", (EVar "name")); ("is_GCD", (EBool false)); ("timing_spec", (ESelf
  "instant_timing_spec")); ("channeling_spec", (ECall "ChannelingSpec" [] [("duration", (EInt 18000))]))])].

(** simulator/game_data/class_skills/tank/pld.py lines 617-618: rampart *)
Definition pld_m30 : pmethod := mkMethod "rampart" []
  [SRet (ECall "Skill" [] [("name", (EStr "Rampart")); ("is_GCD", (EBool false)); ("timing_spec", (ESelf "instant_timing_spec"))])].

(** simulator/game_data/class_skills/tank/pld.py lines 621-622: provoke *)
Definition pld_m31 : pmethod := mkMethod "provoke" []
  [SRet (ECall "Skill" [] [("name", (EStr "Provoke")); ("is_GCD", (EBool false)); ("timing_spec", (ESelf "instant_timing_spec"))])].

(** simulator/game_data/class_skills/tank/pld.py lines 625-628: reprisal *)
Definition pld_m32 : pmethod := mkMethod "reprisal" []
  [SRet (ECall "Skill" [] [("name", (EStr "Reprisal")); ("is_GCD", (EBool false)); ("timing_spec", (ESelf "instant_timing_spec"))])].

(** simulator/game_data/class_skills/tank/pld.py lines 631-634: arms_length *)
Definition pld_m33 : pmethod := mkMethod "arms_length" []
  [SRet (ECall "Skill" [] [("name", (EStr "Arm's Length")); ("is_GCD", (EBool false)); ("timing_spec", (ESelf "instant_timing_spec"))])].

(** simulator/game_data/class_skills/tank/pld.py lines 637-638: shirk *)
Definition pld_m34 : pmethod := mkMethod "shirk" []
  [SRet (ECall "Skill" [] [("name", (EStr "Shirk")); ("is_GCD", (EBool false)); ("timing_spec", (ESelf "instant_timing_spec"))])].

(** simulator/game_data/class_skills/tank/pld.py lines 19-21: __init__ after super().__init__ *)
Definition pld_init : list stmt :=
  [SAttr "_job_class" (EStr "PLD")].

(** simulator/game_data/class_skills/tank/pld.py lines 17-638: class PldSkills; the decorated methods in the order of [dir] *)
Definition pld_class : pclass := mkClass [] pld_init
  [pld_m0; pld_m1; pld_m2; pld_m3; pld_m4; pld_m5; pld_m6; pld_m7; pld_m8; pld_m9; pld_m10; pld_m11; pld_m12; pld_m13; pld_m14; pld_m15; pld_m16;
  pld_m17; pld_m18; pld_m19; pld_m20; pld_m21; pld_m22; pld_m23; pld_m24; pld_m25; pld_m26; pld_m27; pld_m28; pld_m29; pld_m30; pld_m31; pld_m32;
  pld_m33; pld_m34]
  ["arms_length"; "atonement"; "auto"; "blade_of_faith"; "blade_of_honor"; "blade_of_truth"; "blade_of_valor"; "circle_of_scorn"; "confiteor";
  "expiacion"; "fast_blade"; "fight_or_flight"; "goring_blade"; "holy_circle"; "holy_spirit"; "imperator"; "intervene"; "passage_of_arms";
  "prominence"; "provoke"; "rampart"; "reprisal"; "requiescat"; "riot_blade"; "royal_authority"; "sepulchre"; "shield_bash"; "shield_lob"; "shirk";
  "supplication"; "total_eclipse"]
  []
  pld_data.
