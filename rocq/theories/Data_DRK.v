(** * DRK: the shipped skill definitions.

    Generated by tools/gen_game_data.py from
    simulator/game_data/class_skills/tank/drk.py and simulator/game_data/class_skills/tank/drk_data.py. *)

From Coq Require Import ZArith List String.
From Verif Require Import Py.
Import ListNotations.
Open Scope string_scope.
Open Scope Z_scope.

(** simulator/game_data/class_skills/tank/drk_data.py lines 8-70, in dict-literal order *)
Definition drk_data : data_table := [
  ("Hard Slash", [(90, [("potency", [(V655, (EInt 170)); (V705, (EInt 180))])]); (100, [("potency", [(V70, (EInt 260)); (V705, (EInt 300))])])]);
  ("Syphon Strike", [(90, [("potency", [(V655, (EInt 260))]); ("potency_no_combo", [(V655, (EInt 120))])]); (100, [("potency", [(V70, (EInt 360));
  (V705, (EInt 380))]); ("potency_no_combo", [(V70, (EInt 220)); (V705, (EInt 240))])])]);
  ("Unleash", [(90, [("potency", [(V655, (EInt 120))])]); (100, [("potency", [(V70, (EInt 120))])])]);
  ("Unmend", [(90, [("potency", [(V655, (EInt 150))])]); (100, [("potency", [(V70, (EInt 150))])])]);
  ("Souleater", [(90, [("potency", [(V655, (EInt 340)); (V705, (EInt 360))]); ("potency_no_combo", [(V655, (EInt 120)); (V705, (EInt 140))])]); (100,
  [("potency", [(V70, (EInt 460)); (V705, (EInt 480))]); ("potency_no_combo", [(V70, (EInt 240)); (V705, (EInt 260))])])]);
  ("Flood of Shadow", [(90, [("potency", [(V655, (EInt 160))])]); (100, [("potency", [(V70, (EInt 160))])])]);
  ("Stalwart Soul", [(90, [("potency", [(V655, (EInt 140))]); ("potency_no_combo", [(V655, (EInt 100))])]); (100, [("potency", [(V70, (EInt 160))]);
  ("potency_no_combo", [(V70, (EInt 120))])])]);
  ("Edge of Shadow", [(90, [("potency", [(V655, (EInt 460))])]); (100, [("potency", [(V70, (EInt 460))])])]);
  ("Salted Earth (dot)", [(90, [("potency", [(V655, (EInt 50))])]); (100, [("potency", [(V70, (EInt 50))])])]);
  ("Salt and Darkness", [(90, [("potency", [(V655, (EInt 500))])]); (100, [("potency", [(V70, (EInt 500))])])]);
  ("Plunge", [(90, [("potency", [(V655, (EInt 150))])])]);
  ("Abyssal Drain", [(90, [("potency", [(V655, (EInt 240))])]); (100, [("potency", [(V70, (EInt 240))])])]);
  ("Carve and Spit", [(90, [("potency", [(V655, (EInt 510))])]); (100, [("potency", [(V70, (EInt 510)); (V705, (EInt 540))])])]);
  ("Bloodspiller", [(90, [("potency", [(V655, (EInt 500))])]); (100, [("potency", [(V70, (EInt 580)); (V71, (EInt 600))])])]);
  ("Quietus", [(90, [("potency", [(V655, (EInt 200))])]); (100, [("potency", [(V70, (EInt 240))])])]);
  ("Shadowbringer", [(90, [("potency", [(V655, (EInt 600))])]); (100, [("potency", [(V70, (EInt 600))])])]);
  ("Living Shadow", [(90, [("potency_base", [(V655, (EInt 350)); (V70, (EInt 420))]); ("potency_shadowbringer", [(V655, (EInt 500)); (V70, (EInt
  570))]); ("potency_disesteem", [(V70, (EInt 620))])]); (100, [("potency_base", [(V70, (EInt 420))]); ("potency_shadowbringer", [(V70, (EInt 570))]);
  ("potency_disesteem", [(V70, (EInt 620))])])]);
  ("Scarlet Delirium", [(100, [("potency", [(V70, (EInt 600)); (V71, (EInt 620))])])]);
  ("Comeuppance", [(100, [("potency", [(V70, (EInt 700)); (V71, (EInt 720))])])]);
  ("Torcleaver", [(100, [("potency", [(V70, (EInt 800)); (V71, (EInt 820))])])]);
  ("Impalement", [(100, [("potency", [(V70, (EInt 320))])])]);
  ("Disesteem", [(100, [("potency", [(V70, (EInt 800)); (V705, (EInt 1000))])])])].

(** simulator/game_data/class_skills/tank/drk.py lines 21-28: __get_darkside_buff *)
Definition drk_m0 : pmethod := mkMethod "__get_darkside_buff" []
  [SAsg "name" (EStr "Darkside"); SRet (ECall "Skill" [] [("name", (EVar "name")); ("buff_spec", (ECall "StatusEffectSpec" [] [("duration", (EInt
  30000)); ("max_duration", (EInt 60000)); ("damage_mult", (EFlt 11 10))]))])].

(** simulator/game_data/class_skills/tank/drk.py lines 31-40: auto *)
Definition drk_m1 : pmethod := mkMethod "auto" []
  [SAsg "name" (EStr "Auto"); SRet (ECall "Skill" [] [("name", (EVar "name")); ("is_GCD", (EBool false)); ("timing_spec", (ESelf "auto_timing_spec"));
  ("damage_spec", (ECall "DamageSpec" [] [("potency", (EInt 90)); ("damage_class", (EConst "DamageClass.AUTO")); ("trait_damage_mult_override", (EInt
  1))]))])].

(** simulator/game_data/class_skills/tank/drk.py lines 43-53: hard_slash *)
Definition drk_m2 : pmethod := mkMethod "hard_slash" []
  [SAsg "name" (EStr "Hard Slash"); SRet (ECall "Skill" [] [("name", (EVar "name")); ("is_GCD", (EBool true)); ("combo_spec", (ETup [(ECall
  "ComboSpec" [] [])])); ("damage_spec", (ECall "DamageSpec" [] [("potency", (EPot (EVar "name")))])); ("timing_spec", (ECall "TimingSpec" []
  [("base_cast_time", (EInt 0)); ("animation_lock", (EInt 650)); ("application_delay", (EInt 581))]))])].

(** simulator/game_data/class_skills/tank/drk.py lines 56-73: syphon_strike *)
Definition drk_m3 : pmethod := mkMethod "syphon_strike" []
  [SAsg "name" (EStr "Syphon Strike"); SRet (ECall "Skill" [] [("name", (EVar "name")); ("is_GCD", (EBool true)); ("combo_spec", (ETup [(ECall
  "ComboSpec" [] [("combo_actions", (ETup [(EStr "Hard Slash")]))])])); ("damage_spec", (EDict [((EConst "SimConsts.DEFAULT_CONDITION"), (ECall
  "DamageSpec" [] [("potency", (EPot (EVar "name")))])); ((EStr "No Combo"), (ECall "DamageSpec" [] [("potency", (EPotNC (EVar "name")))]))]));
  ("timing_spec", (ECall "TimingSpec" [] [("base_cast_time", (EInt 0)); ("animation_lock", (EInt 650)); ("application_delay", (EInt 624))]))])].

(** simulator/game_data/class_skills/tank/drk.py lines 76-87: unleash *)
Definition drk_m4 : pmethod := mkMethod "unleash" []
  [SAsg "name" (EStr "Unleash"); SRet (ECall "Skill" [] [("name", (EVar "name")); ("is_GCD", (EBool true)); ("combo_spec", (ETup [(ECall "ComboSpec"
  [] [])])); ("damage_spec", (ECall "DamageSpec" [] [("potency", (EPot (EVar "name")))])); ("timing_spec", (ECall "TimingSpec" [] [("base_cast_time",
  (EInt 0)); ("animation_lock", (EInt 650)); ("application_delay", (EInt 712))])); ("has_aoe", (EBool true))])].

(** simulator/game_data/class_skills/tank/drk.py lines 90-99: unmend *)
Definition drk_m5 : pmethod := mkMethod "unmend" []
  [SAsg "name" (EStr "Unmend"); SRet (ECall "Skill" [] [("name", (EVar "name")); ("is_GCD", (EBool true)); ("damage_spec", (ECall "DamageSpec" []
  [("potency", (EPot (EVar "name")))])); ("timing_spec", (ECall "TimingSpec" [] [("base_cast_time", (EInt 0)); ("animation_lock", (EInt 650));
  ("application_delay", (EInt 978))]))])].

(** simulator/game_data/class_skills/tank/drk.py lines 102-119: souleater *)
Definition drk_m6 : pmethod := mkMethod "souleater" []
  [SAsg "name" (EStr "Souleater"); SRet (ECall "Skill" [] [("name", (EVar "name")); ("is_GCD", (EBool true)); ("combo_spec", (ETup [(ECall "ComboSpec"
  [] [("combo_actions", (ETup [(EStr "Syphon Strike")]))])])); ("damage_spec", (EDict [((EConst "SimConsts.DEFAULT_CONDITION"), (ECall "DamageSpec" []
  [("potency", (EPot (EVar "name")))])); ((EStr "No Combo"), (ECall "DamageSpec" [] [("potency", (EPotNC (EVar "name")))]))])); ("timing_spec", (ECall
  "TimingSpec" [] [("base_cast_time", (EInt 0)); ("animation_lock", (EInt 650)); ("application_delay", (EInt 624))]))])].

(** simulator/game_data/class_skills/tank/drk.py lines 122-148: flood_of_shadow *)
Definition drk_m7 : pmethod := mkMethod "flood_of_shadow" []
  [SAsg "name" (EStr "Flood of Shadow"); SAsg "flood_of_shadow_damage_follow_up" (ECall "FollowUp" [] [("skill", (ECall "Skill" [] [("name", (EVar
  "name")); ("damage_spec", (ECall "DamageSpec" [] [("potency", (EPot (EVar "name")))]))])); ("delay_after_parent_application", (EInt 624));
  ("primary_target_only", (EBool false))]); SRet (ECall "Skill" [] [("name", (EVar "name")); ("is_GCD", (EBool false)); ("timing_spec", (ECall
  "TimingSpec" [] [("base_cast_time", (EInt 0)); ("animation_lock", (EInt 650)); ("application_delay", (EInt 624))])); ("follow_up_skills", (ETup
  [(EVar "flood_of_shadow_damage_follow_up"); (ECall "FollowUp" [] [("skill", (EMeth "__get_darkside_buff" [] [])); ("delay_after_parent_application",
  (EInt 0)); ("primary_target_only", (EBool true))])])); ("has_aoe", (EBool true))])].

(** simulator/game_data/class_skills/tank/drk.py lines 151-170: stalwart_soul *)
Definition drk_m8 : pmethod := mkMethod "stalwart_soul" []
  [SAsg "name" (EStr "Stalwart Soul"); SRet (ECall "Skill" [] [("name", (EVar "name")); ("is_GCD", (EBool true)); ("combo_spec", (ETup [(ECall
  "ComboSpec" [] [("combo_actions", (ETup [(EStr "Unleash")]))])])); ("damage_spec", (EDict [((EConst "SimConsts.DEFAULT_CONDITION"), (ECall
  "DamageSpec" [] [("potency", (EPot (EVar "name")))])); ((EStr "No Combo"), (ECall "DamageSpec" [] [("potency", (EPotNC (EVar "name")))]))]));
  ("timing_spec", (ECall "TimingSpec" [] [("base_cast_time", (EInt 0)); ("animation_lock", (EInt 650)); ("application_delay", (EInt 712))]));
  ("has_aoe", (EBool true))])].

(** simulator/game_data/class_skills/tank/drk.py lines 173-194: edge_of_shadow *)
Definition drk_m9 : pmethod := mkMethod "edge_of_shadow" []
  [SAsg "name" (EStr "Edge of Shadow"); SAsg "edge_of_shadow_damage_follow_up" (ECall "FollowUp" [] [("skill", (ECall "Skill" [] [("name", (EVar
  "name")); ("damage_spec", (ECall "DamageSpec" [] [("potency", (EPot (EVar "name")))]))])); ("delay_after_parent_application", (EInt 624))]); SRet
  (ECall "Skill" [] [("name", (EVar "name")); ("is_GCD", (EBool false)); ("timing_spec", (ECall "TimingSpec" [] [("base_cast_time", (EInt 0));
  ("animation_lock", (EInt 650)); ("application_delay", (EInt 0))])); ("follow_up_skills", (ETup [(EVar "edge_of_shadow_damage_follow_up"); (ECall
  "FollowUp" [] [("skill", (EMeth "__get_darkside_buff" [] [])); ("delay_after_parent_application", (EInt 0))])]))])].

(** simulator/game_data/class_skills/tank/drk.py lines 197-227: salted_earth *)
Definition drk_m10 : pmethod := mkMethod "salted_earth" []
  [SAsg "name" (EStr "Salted Earth (dot)"); SAsg "salted_earth_dot_drk" (ECall "Skill" [] [("name", (EVar "name")); ("is_GCD", (EBool false));
  ("damage_spec", (ECall "DamageSpec" [] [("potency", (EPot (EVar "name"))); ("damage_class", (EConst "DamageClass.PHYSICAL_DOT"))]))]); SAsg "name"
  (EStr "Salted Earth"); SRet (ECall "Skill" [] [("name", (EVar "name")); ("is_GCD", (EBool false)); ("timing_spec", (ECall "TimingSpec" []
  [("base_cast_time", (EInt 0)); ("animation_lock", (EInt 650)); ("application_delay", (EInt 757))])); ("follow_up_skills", (ETup [(ECall "FollowUp"
  [] [("skill", (EVar "salted_earth_dot_drk")); ("delay_after_parent_application", (EInt 0)); ("dot_duration", (EBin BMul (EInt 15) (EInt 1000)));
  ("snapshot_buffs_with_parent", (EBool true)); ("snapshot_debuffs_with_parent", (EBool false))])])); ("has_aoe", (EBool true))])].

(** simulator/game_data/class_skills/tank/drk.py lines 230-245: salt_and_darkness *)
Definition drk_m11 : pmethod := mkMethod "salt_and_darkness" []
  [SAsg "name" (EStr "Salt and Darkness"); SRet (ECall "Skill" [] [("name", (EVar "name")); ("is_GCD", (EBool false)); ("damage_spec", (EDict
  [((EConst "SimConsts.DEFAULT_CONDITION"), (ECall "DamageSpec" [] [("potency", (EPot (EVar "name")))]))])); ("timing_spec", (ECall "TimingSpec" []
  [("base_cast_time", (EInt 0)); ("animation_lock", (EInt 650)); ("application_delay", (EInt 757))])); ("has_aoe", (EBool true)); ("aoe_dropoff",
  (EFlt 1 2))])].

(** simulator/game_data/class_skills/tank/drk.py lines 248-259: plunge *)
Definition drk_m12 : pmethod := mkMethod "plunge" []
  [SIf (EVer OGe V70) [SRet ENone] []; SAsg "name" (EStr "Plunge"); SRet (ECall "Skill" [] [("name", (EVar "name")); ("is_GCD", (EBool false));
  ("damage_spec", (ECall "DamageSpec" [] [("potency", (EPot (EVar "name")))])); ("timing_spec", (ECall "TimingSpec" [] [("base_cast_time", (EInt 0));
  ("animation_lock", (EInt 650)); ("application_delay", (EInt 624))]))])].

(** simulator/game_data/class_skills/tank/drk.py lines 262-272: abyssal_drain *)
Definition drk_m13 : pmethod := mkMethod "abyssal_drain" []
  [SAsg "name" (EStr "Abyssal Drain"); SRet (ECall "Skill" [] [("name", (EVar "name")); ("is_GCD", (EBool false)); ("damage_spec", (ECall "DamageSpec"
  [] [("potency", (EPot (EVar "name")))])); ("timing_spec", (ECall "TimingSpec" [] [("base_cast_time", (EInt 0)); ("animation_lock", (EInt 650));
  ("application_delay", (EInt 978))])); ("has_aoe", (EBool true))])].

(** simulator/game_data/class_skills/tank/drk.py lines 275-284: carve_and_spit *)
Definition drk_m14 : pmethod := mkMethod "carve_and_spit" []
  [SAsg "name" (EStr "Carve and Spit"); SRet (ECall "Skill" [] [("name", (EVar "name")); ("is_GCD", (EBool false)); ("damage_spec", (ECall
  "DamageSpec" [] [("potency", (EPot (EVar "name")))])); ("timing_spec", (ECall "TimingSpec" [] [("base_cast_time", (EInt 0)); ("animation_lock",
  (EInt 650)); ("application_delay", (EInt 1473))]))])].

(** simulator/game_data/class_skills/tank/drk.py lines 287-296: bloodspiller *)
Definition drk_m15 : pmethod := mkMethod "bloodspiller" []
  [SAsg "name" (EStr "Bloodspiller"); SRet (ECall "Skill" [] [("name", (EVar "name")); ("is_GCD", (EBool true)); ("damage_spec", (ECall "DamageSpec"
  [] [("potency", (EPot (EVar "name")))])); ("timing_spec", (ECall "TimingSpec" [] [("base_cast_time", (EInt 0)); ("animation_lock", (EInt 650));
  ("application_delay", (EInt 802))]))])].

(** simulator/game_data/class_skills/tank/drk.py lines 299-309: quietus *)
Definition drk_m16 : pmethod := mkMethod "quietus" []
  [SAsg "name" (EStr "Quietus"); SRet (ECall "Skill" [] [("name", (EVar "name")); ("is_GCD", (EBool true)); ("damage_spec", (ECall "DamageSpec" []
  [("potency", (EPot (EVar "name")))])); ("timing_spec", (ECall "TimingSpec" [] [("base_cast_time", (EInt 0)); ("animation_lock", (EInt 650));
  ("application_delay", (EInt 757))])); ("has_aoe", (EBool true))])].

(** simulator/game_data/class_skills/tank/drk.py lines 312-327: shadowbringer *)
Definition drk_m17 : pmethod := mkMethod "shadowbringer" []
  [SAsg "name" (EStr "Shadowbringer"); SRet (ECall "Skill" [] [("name", (EVar "name")); ("is_GCD", (EBool false)); ("damage_spec", (EDict [((EConst
  "SimConsts.DEFAULT_CONDITION"), (ECall "DamageSpec" [] [("potency", (EPot (EVar "name")))]))])); ("timing_spec", (ECall "TimingSpec" []
  [("base_cast_time", (EInt 0)); ("animation_lock", (EInt 650)); ("application_delay", (EInt 666))])); ("has_aoe", (EBool true)); ("aoe_dropoff",
  (EFlt 1 2))])].

(** simulator/game_data/class_skills/tank/drk.py lines 330-443: living_shadow *)
Definition drk_m18 : pmethod := mkMethod "living_shadow" []
  [SAsg "name" (EStr "Living Shadow"); SIf (EVer OGe V70) [SAsg "ls_names_and_potency_and_delays" (EList [(ETup [(EStr "Abyssal Drain (pet)"); (EData
  (EStr "Living Shadow") (EStr "potency_base")); (EInt 6800); (EBool true)]); (ETup [(EStr "Shadowbringer (pet)"); (EData (EStr "Living Shadow") (EStr
  "potency_shadowbringer")); (EBin BAdd (EInt 6800) (EBin BMul (EInt 2) (EInt 2200))); (EBool false)]); (ETup [(EStr "Edge of Shadow (pet)"); (EData
  (EStr "Living Shadow") (EStr "potency_base")); (EBin BAdd (EInt 6800) (EBin BMul (EInt 3) (EInt 2200))); (EBool true)]); (ETup [(EStr
  "Bloodspiller (pet)"); (EData (EStr "Living Shadow") (EStr "potency_base")); (EBin BAdd (EInt 6800) (EBin BMul (EInt 4) (EInt 2200))); (EBool
  true)]); (ETup [(EStr "Disesteem (pet)"); (EData (EStr "Living Shadow") (EStr "potency_disesteem")); (EBin BAdd (EInt 6800) (EBin BMul (EInt 5)
  (EInt 2200))); (EBool false)])])] [SAsg "ls_names_and_potency_and_delays" (EList [(ETup [(EStr "Abyssal Drain (pet)"); (EData (EStr "Living Shadow")
  (EStr "potency_base")); (EInt 6800); (EBool true)]); (ETup [(EStr "Plunge (pet)"); (EData (EStr "Living Shadow") (EStr "potency_base")); (EBin BAdd
  (EInt 6800) (EInt 2200)); (EBool true)]); (ETup [(EStr "Shadowbringer (pet)"); (EData (EStr "Living Shadow") (EStr "potency_shadowbringer")); (EBin
  BAdd (EInt 6800) (EBin BMul (EInt 2) (EInt 2200))); (EBool false)]); (ETup [(EStr "Edge of Shadow (pet)"); (EData (EStr "Living Shadow") (EStr
  "potency_base")); (EBin BAdd (EInt 6800) (EBin BMul (EInt 3) (EInt 2200))); (EBool true)]); (ETup [(EStr "Bloodspiller (pet)"); (EData (EStr
  "Living Shadow") (EStr "potency_base")); (EBin BAdd (EInt 6800) (EBin BMul (EInt 4) (EInt 2200))); (EBool true)]); (ETup [(EStr
  "Carve and Spit (pet)"); (EData (EStr "Living Shadow") (EStr "potency_base")); (EBin BAdd (EInt 6800) (EBin BMul (EInt 5) (EInt 2200))); (EBool
  true)])])]; SAsg "_living_shadow_follow_ups" (EList []); SFor ["skill_name"; "potency"; "delay"; "primary_target_only"] true (EVar
  "ls_names_and_potency_and_delays") [SAsg "fu" (ECall "FollowUp" [] [("skill", (ECall "Skill" [] [("name", (EVar "skill_name")); ("is_GCD", (EBool
  false)); ("damage_spec", (ECall "DamageSpec" [] [("potency", (EVar "potency")); ("damage_class", (EConst "DamageClass.PET"));
  ("pet_job_mod_override", (EInt 100))])); ("status_effect_denylist", (ETup [(EStr "Darkside"); (EStr "Dragon Sight")]))]));
  ("delay_after_parent_application", (EVar "delay")); ("snapshot_buffs_with_parent", (EBool false)); ("snapshot_debuffs_with_parent", (EBool false));
  ("primary_target_only", (EVar "primary_target_only"))]); SApp "_living_shadow_follow_ups" (EVar "fu")]; SAsg "_living_shadow_follow_ups" (ECall
  "tuple" [(EVar "_living_shadow_follow_ups")] []); SRet (ECall "Skill" [] [("name", (EVar "name")); ("is_GCD", (EBool false)); ("follow_up_skills",
  (EVar "_living_shadow_follow_ups")); ("timing_spec", (ESelf "instant_timing_spec")); ("status_effect_denylist", (ETup [(EStr "Darkside"); (EStr
  "Dragon Sight")]))])].

(** simulator/game_data/class_skills/tank/drk.py lines 446-458: scarlet_delirium *)
Definition drk_m19 : pmethod := mkMethod "scarlet_delirium" []
  [SIf (ELev OLt K96) [SRet ENone] []; SAsg "name" (EStr "Scarlet Delirium"); SRet (ECall "Skill" [] [("name", (EVar "name")); ("is_GCD", (EBool
  true)); ("damage_spec", (ECall "DamageSpec" [] [("potency", (EPot (EVar "name")))])); ("timing_spec", (ECall "TimingSpec" [] [("base_cast_time",
  (EInt 0)); ("animation_lock", (EInt 650)); ("application_delay", (EInt 581))]))])].

(** simulator/game_data/class_skills/tank/drk.py lines 461-473: comeuppance *)
Definition drk_m20 : pmethod := mkMethod "comeuppance" []
  [SIf (ELev OLt K96) [SRet ENone] []; SAsg "name" (EStr "Comeuppance"); SRet (ECall "Skill" [] [("name", (EVar "name")); ("is_GCD", (EBool true));
  ("damage_spec", (ECall "DamageSpec" [] [("potency", (EPot (EVar "name")))])); ("timing_spec", (ECall "TimingSpec" [] [("base_cast_time", (EInt 0));
  ("animation_lock", (EInt 650)); ("application_delay", (EInt 670))]))])].

(** simulator/game_data/class_skills/tank/drk.py lines 476-488: torcleaver *)
Definition drk_m21 : pmethod := mkMethod "torcleaver" []
  [SIf (ELev OLt K96) [SRet ENone] []; SAsg "name" (EStr "Torcleaver"); SRet (ECall "Skill" [] [("name", (EVar "name")); ("is_GCD", (EBool true));
  ("damage_spec", (ECall "DamageSpec" [] [("potency", (EPot (EVar "name")))])); ("timing_spec", (ECall "TimingSpec" [] [("base_cast_time", (EInt 0));
  ("animation_lock", (EInt 650)); ("application_delay", (EInt 620))]))])].

(** simulator/game_data/class_skills/tank/drk.py lines 491-504: impalement *)
Definition drk_m22 : pmethod := mkMethod "impalement" []
  [SIf (ELev OLt K96) [SRet ENone] []; SAsg "name" (EStr "Impalement"); SRet (ECall "Skill" [] [("name", (EVar "name")); ("is_GCD", (EBool true));
  ("damage_spec", (ECall "DamageSpec" [] [("potency", (EPot (EVar "name")))])); ("timing_spec", (ECall "TimingSpec" [] [("base_cast_time", (EInt 0));
  ("animation_lock", (EInt 650)); ("application_delay", (EInt 980))])); ("has_aoe", (EBool true))])].

(** simulator/game_data/class_skills/tank/drk.py lines 507-525: disesteem *)
Definition drk_m23 : pmethod := mkMethod "disesteem" []
  [SIf (ELev OLt K100) [SRet ENone] []; SAsg "name" (EStr "Disesteem"); SRet (ECall "Skill" [] [("name", (EVar "name")); ("is_GCD", (EBool true));
  ("damage_spec", (EDict [((EConst "SimConsts.DEFAULT_CONDITION"), (ECall "DamageSpec" [] [("potency", (EPot (EVar "name")))]))])); ("timing_spec",
  (ECall "TimingSpec" [] [("base_cast_time", (EInt 0)); ("animation_lock", (EInt 650)); ("application_delay", (EInt 1650))])); ("has_aoe", (EBool
  true)); ("aoe_dropoff", (EFlt 1 2))])].

(** simulator/game_data/class_skills/tank/drk.py lines 532-533: rampart *)
Definition drk_m24 : pmethod := mkMethod "rampart" []
  [SRet (ECall "Skill" [] [("name", (EStr "Rampart")); ("is_GCD", (EBool false)); ("timing_spec", (ESelf "instant_timing_spec"))])].

(** simulator/game_data/class_skills/tank/drk.py lines 536-537: provoke *)
Definition drk_m25 : pmethod := mkMethod "provoke" []
  [SRet (ECall "Skill" [] [("name", (EStr "Provoke")); ("is_GCD", (EBool false)); ("timing_spec", (ESelf "instant_timing_spec"))])].

(** simulator/game_data/class_skills/tank/drk.py lines 540-543: reprisal *)
Definition drk_m26 : pmethod := mkMethod "reprisal" []
  [SRet (ECall "Skill" [] [("name", (EStr "Reprisal")); ("is_GCD", (EBool false)); ("timing_spec", (ESelf "instant_timing_spec"))])].

(** simulator/game_data/class_skills/tank/drk.py lines 546-549: arms_length *)
Definition drk_m27 : pmethod := mkMethod "arms_length" []
  [SRet (ECall "Skill" [] [("name", (EStr "Arm's Length")); ("is_GCD", (EBool false)); ("timing_spec", (ESelf "instant_timing_spec"))])].

(** simulator/game_data/class_skills/tank/drk.py lines 552-553: shirk *)
Definition drk_m28 : pmethod := mkMethod "shirk" []
  [SRet (ECall "Skill" [] [("name", (EStr "Shirk")); ("is_GCD", (EBool false)); ("timing_spec", (ESelf "instant_timing_spec"))])].

(** simulator/game_data/class_skills/tank/drk.py lines 556-559: delirium *)
Definition drk_m29 : pmethod := mkMethod "delirium" []
  [SRet (ECall "Skill" [] [("name", (EStr "Delirium")); ("is_GCD", (EBool false)); ("timing_spec", (ESelf "instant_timing_spec"))])].

(** simulator/game_data/class_skills/tank/drk.py lines 562-565: blood_weapon *)
Definition drk_m30 : pmethod := mkMethod "blood_weapon" []
  [SRet (ECall "Skill" [] [("name", (EStr "Blood Weapon")); ("is_GCD", (EBool false)); ("timing_spec", (ESelf "instant_timing_spec"))])].

(** simulator/game_data/class_skills/tank/drk.py lines 568-571: shadowstride *)
Definition drk_m31 : pmethod := mkMethod "shadowstride" []
  [SRet (ECall "Skill" [] [("name", (EStr "Shadowstride")); ("is_GCD", (EBool false)); ("timing_spec", (ESelf "instant_timing_spec"))])].

(** simulator/game_data/class_skills/tank/drk.py lines 574-577: the_blackest_night *)
Definition drk_m32 : pmethod := mkMethod "the_blackest_night" []
  [SRet (ECall "Skill" [] [("name", (EStr "The Blackest Night")); ("is_GCD", (EBool false)); ("timing_spec", (ESelf "instant_timing_spec"))])].

(** simulator/game_data/class_skills/tank/drk.py lines 580-583: oblation *)
Definition drk_m33 : pmethod := mkMethod "oblation" []
  [SRet (ECall "Skill" [] [("name", (EStr "Oblation")); ("is_GCD", (EBool false)); ("timing_spec", (ESelf "instant_timing_spec"))])].

(** simulator/game_data/class_skills/tank/drk.py lines 17-19: __init__ after super().__init__ *)
Definition drk_init : list stmt :=
  [SAttr "_job_class" (EStr "DRK")].

(** simulator/game_data/class_skills/tank/drk.py lines 16-583: class DrkSkills; the decorated methods in the order of [dir] *)
Definition drk_class : pclass := mkClass [] drk_init
  [drk_m0; drk_m1; drk_m2; drk_m3; drk_m4; drk_m5; drk_m6; drk_m7; drk_m8; drk_m9; drk_m10; drk_m11; drk_m12; drk_m13; drk_m14; drk_m15; drk_m16;
  drk_m17; drk_m18; drk_m19; drk_m20; drk_m21; drk_m22; drk_m23; drk_m24; drk_m25; drk_m26; drk_m27; drk_m28; drk_m29; drk_m30; drk_m31; drk_m32;
  drk_m33]
  ["abyssal_drain"; "arms_length"; "auto"; "blood_weapon"; "bloodspiller"; "carve_and_spit"; "comeuppance"; "delirium"; "disesteem"; "edge_of_shadow";
  "flood_of_shadow"; "hard_slash"; "impalement"; "living_shadow"; "oblation"; "plunge"; "provoke"; "quietus"; "rampart"; "reprisal";
  "salt_and_darkness"; "salted_earth"; "scarlet_delirium"; "shadowbringer"; "shadowstride"; "shirk"; "souleater"; "stalwart_soul"; "syphon_strike";
  "the_blackest_night"; "torcleaver"; "unleash"; "unmend"]
  []
  drk_data.
