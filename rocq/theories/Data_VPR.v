(** * VPR: the shipped skill definitions.

    Generated by tools/gen_game_data.py from
    simulator/game_data/class_skills/melee/vpr.py and simulator/game_data/class_skills/melee/vpr_data.py. *)

From Coq Require Import ZArith List String.
From Verif Require Import Py.
Import ListNotations.
Open Scope string_scope.
Open Scope Z_scope.

(** simulator/game_data/class_skills/melee/vpr_data.py lines 10-544, in dict-literal order *)
Definition vpr_data : data_table := [
  ("Combo Base", [(90, [("potency_no_venom", [(V70, (EInt 120)); (V705, (EInt 160))]); ("potency_venom", [(V70, (EInt 220)); (V705, (EInt 260))])]);
  (100, [("potency_no_venom", [(V70, (EInt 120)); (V705, (EInt 160))]); ("potency_venom", [(V70, (EInt 220)); (V705, (EInt 260))])])]);
  ("Steel Fangs", [(90, [("damage_spec", [(V70, (ECall "DamageSpec" [] [("potency", (EInt 200))])); (V705, (EDict [((EConst
  "SimConsts.DEFAULT_CONDITION"), (ECall "DamageSpec" [] [("potency", (EInt 200))])); ((EStr "Honed Steel"), (ECall "DamageSpec" [] [("potency", (EInt
  300))]))]))])]); (100, [("damage_spec", [(V70, (ECall "DamageSpec" [] [("potency", (EInt 200))])); (V705, (EDict [((EConst
  "SimConsts.DEFAULT_CONDITION"), (ECall "DamageSpec" [] [("potency", (EInt 200))])); ((EStr "Honed Steel"), (ECall "DamageSpec" [] [("potency", (EInt
  300))]))]))])])]);
  ("Hunter's Instinct", [(90, [("duration", [(V70, (ECall "int" [(EBin BMul (EInt 40) (EInt 1000))] []))])]); (100, [("duration", [(V70, (ECall "int"
  [(EBin BMul (EInt 40) (EInt 1000))] []))])])]);
  ("Hunter's Sting", [(90, [("potency", [(V70, (EInt 260)); (V705, (EInt 300))])]); (100, [("potency", [(V70, (EInt 260)); (V705, (EInt 300))])])]);
  ("Noxious Gnash", [(90, [("duration", [(V70, (EBin BMul (EInt 20) (EInt 1000)))]); ("max_duration", [(V70, (EBin BMul (EInt 40) (EInt 1000)))])]);
  (100, [("duration", [(V70, (EBin BMul (EInt 20) (EInt 1000)))]); ("max_duration", [(V70, (EBin BMul (EInt 40) (EInt 1000)))])])]);
  ("Dread Fangs", [(90, [("potency", [(V70, (EInt 140))])]); (100, [("potency", [(V70, (EInt 140))])])]);
  ("Reaving Fangs", [(90, [("potency", [(V705, (EInt 200))]); ("potency_honed_reavers", [(V705, (EInt 300))])]); (100, [("potency", [(V705, (EInt
  200))]); ("potency_honed_reavers", [(V705, (EInt 300))])])]);
  ("Writhing Snap", [(90, [("potency", [(V70, (EInt 200))])]); (100, [("potency", [(V70, (EInt 200))])])]);
  ("Swiftscaled", [(90, [("duration", [(V70, (EBin BMul (EInt 40) (EInt 1000)))])]); (100, [("duration", [(V70, (EBin BMul (EInt 40) (EInt
  1000)))])])]);
  ("Swiftskin's Sting", [(90, [("potency", [(V70, (EInt 260)); (V705, (EInt 300))])]); (100, [("potency", [(V70, (EInt 260)); (V705, (EInt
  300))])])]);
  ("Steel Maw", [(90, [("damage_spec", [(V70, (ECall "DamageSpec" [] [("potency", (EInt 100))])); (V705, (EDict [((EConst
  "SimConsts.DEFAULT_CONDITION"), (ECall "DamageSpec" [] [("potency", (EInt 100))])); ((EStr "Honed Steel"), (ECall "DamageSpec" [] [("potency", (EInt
  120))]))]))])]); (100, [("damage_spec", [(V70, (ECall "DamageSpec" [] [("potency", (EInt 100))])); (V705, (EDict [((EConst
  "SimConsts.DEFAULT_CONDITION"), (ECall "DamageSpec" [] [("potency", (EInt 100))])); ((EStr "Honed Steel"), (ECall "DamageSpec" [] [("potency", (EInt
  120))]))]))])])]);
  ("Hindstung Venom", [(90, [("duration", [(V70, (EBin BMul (EInt 40) (EInt 1000))); (V705, (EBin BMul (EInt 60) (EInt 1000)))])]); (100,
  [("duration", [(V70, (EBin BMul (EInt 40) (EInt 1000))); (V705, (EBin BMul (EInt 60) (EInt 1000)))])])]);
  ("Flanksting Strike", [(90, [("potency", [(V70, (EInt 360)); (V705, (EInt 400))]); ("potency_no_pos", [(V70, (EInt 300)); (V705, (EInt 340))]);
  ("potency_venom", [(V70, (EInt 460)); (V705, (EInt 500))]); ("potency_no_pos_venom", [(V70, (EInt 400)); (V705, (EInt 440))])]); (100, [("potency",
  [(V70, (EInt 360)); (V705, (EInt 400))]); ("potency_no_pos", [(V70, (EInt 300)); (V705, (EInt 340))]); ("potency_venom", [(V70, (EInt 460)); (V705,
  (EInt 500))]); ("potency_no_pos_venom", [(V70, (EInt 400)); (V705, (EInt 440))])])]);
  ("Hindsbane Venom", [(90, [("duration", [(V70, (EBin BMul (EInt 40) (EInt 1000))); (V705, (EBin BMul (EInt 60) (EInt 1000)))])]); (100,
  [("duration", [(V70, (EBin BMul (EInt 40) (EInt 1000))); (V705, (EBin BMul (EInt 60) (EInt 1000)))])])]);
  ("Flanksbane Fang", [(90, [("potency", [(V70, (EInt 360)); (V705, (EInt 400))]); ("potency_no_pos", [(V70, (EInt 300)); (V705, (EInt 340))]);
  ("potency_venom", [(V70, (EInt 460)); (V705, (EInt 500))]); ("potency_no_pos_venom", [(V70, (EInt 400)); (V705, (EInt 440))])]); (100, [("potency",
  [(V70, (EInt 360)); (V705, (EInt 400))]); ("potency_no_pos", [(V70, (EInt 300)); (V705, (EInt 340))]); ("potency_venom", [(V70, (EInt 460)); (V705,
  (EInt 500))]); ("potency_no_pos_venom", [(V70, (EInt 400)); (V705, (EInt 440))])])]);
  ("Flanksbane Venom", [(90, [("duration", [(V70, (EBin BMul (EInt 40) (EInt 1000))); (V705, (EBin BMul (EInt 60) (EInt 1000)))])]); (100,
  [("duration", [(V70, (EBin BMul (EInt 40) (EInt 1000))); (V705, (EBin BMul (EInt 60) (EInt 1000)))])])]);
  ("Hindsting Strike", [(90, [("potency", [(V70, (EInt 360)); (V705, (EInt 400))]); ("potency_no_pos", [(V70, (EInt 300)); (V705, (EInt 340))]);
  ("potency_venom", [(V70, (EInt 460)); (V705, (EInt 500))]); ("potency_no_pos_venom", [(V70, (EInt 400)); (V705, (EInt 440))])]); (100, [("potency",
  [(V70, (EInt 360)); (V705, (EInt 400))]); ("potency_no_pos", [(V70, (EInt 300)); (V705, (EInt 340))]); ("potency_venom", [(V70, (EInt 460)); (V705,
  (EInt 500))]); ("potency_no_pos_venom", [(V70, (EInt 400)); (V705, (EInt 440))])])]);
  ("Flankstung Venom", [(90, [("duration", [(V70, (EBin BMul (EInt 40) (EInt 1000))); (V705, (EBin BMul (EInt 60) (EInt 1000)))])]); (100,
  [("duration", [(V70, (EBin BMul (EInt 40) (EInt 1000))); (V705, (EBin BMul (EInt 60) (EInt 1000)))])])]);
  ("Hindsbane Fang", [(90, [("potency", [(V70, (EInt 360)); (V705, (EInt 400))]); ("potency_no_pos", [(V70, (EInt 300)); (V705, (EInt 340))]);
  ("potency_venom", [(V70, (EInt 460)); (V705, (EInt 500))]); ("potency_no_pos_venom", [(V70, (EInt 400)); (V705, (EInt 440))])]); (100, [("potency",
  [(V70, (EInt 360)); (V705, (EInt 400))]); ("potency_no_pos", [(V70, (EInt 300)); (V705, (EInt 340))]); ("potency_venom", [(V70, (EInt 460)); (V705,
  (EInt 500))]); ("potency_no_pos_venom", [(V70, (EInt 400)); (V705, (EInt 440))])])]);
  ("Dread Maw", [(90, [("potency", [(V70, (EInt 80))])]); (100, [("potency", [(V70, (EInt 80))])])]);
  ("Reaving Maw", [(90, [("potency", [(V705, (EInt 100))]); ("potency_honed_reavers", [(V705, (EInt 120))])]); (100, [("potency", [(V705, (EInt
  100))]); ("potency_honed_reavers", [(V705, (EInt 120))])])]);
  ("Hunter's Bite", [(90, [("potency", [(V70, (EInt 120)); (V705, (EInt 130))])]); (100, [("potency", [(V70, (EInt 120)); (V705, (EInt 130))])])]);
  ("Swiftskin's Bite", [(90, [("potency", [(V70, (EInt 120)); (V705, (EInt 130))])]); (100, [("potency", [(V70, (EInt 120)); (V705, (EInt 130))])])]);
  ("Grimskin's Venom", [(90, [("duration", [(V70, (EBin BMul (EInt 40) (EInt 1000))); (V705, (EBin BMul (EInt 60) (EInt 1000)))])]); (100,
  [("duration", [(V70, (EBin BMul (EInt 40) (EInt 1000))); (V705, (EBin BMul (EInt 60) (EInt 1000)))])])]);
  ("Jagged Maw", [(90, [("potency", [(V70, (EInt 140))]); ("potency_venom", [(V70, (EInt 160))])]); (100, [("potency", [(V70, (EInt 140))]);
  ("potency_venom", [(V70, (EInt 160))])])]);
  ("Grimhunter's Venom", [(90, [("duration", [(V70, (EBin BMul (EInt 40) (EInt 1000))); (V705, (EBin BMul (EInt 60) (EInt 1000)))])]); (100,
  [("duration", [(V70, (EBin BMul (EInt 40) (EInt 1000))); (V705, (EBin BMul (EInt 60) (EInt 1000)))])])]);
  ("Bloodied Maw", [(90, [("potency", [(V70, (EInt 140))]); ("potency_venom", [(V70, (EInt 160))])]); (100, [("potency", [(V70, (EInt 140))]);
  ("potency_venom", [(V70, (EInt 160))])])]);
  ("Death Rattle", [(90, [("potency", [(V70, (EInt 250)); (V705, (EInt 280))])]); (100, [("potency", [(V70, (EInt 250)); (V705, (EInt 280))])])]);
  ("Last Lash", [(90, [("potency", [(V70, (EInt 100))])]); (100, [("potency", [(V70, (EInt 100))])])]);
  ("Dreadwinder", [(90, [("potency", [(V70, (EInt 450))])]); (100, [("potency", [(V70, (EInt 450))])])]);
  ("Vicewinder", [(90, [("potency", [(V705, (EInt 500))])]); (100, [("potency", [(V705, (EInt 500))])])]);
  ("Hunter's Venom", [(90, [("duration", [(V70, (EBin BMul (EInt 30) (EInt 1000)))])]); (100, [("duration", [(V70, (EBin BMul (EInt 30) (EInt
  1000)))])])]);
  ("Hunter's Coil", [(90, [("potency", [(V70, (EInt 550)); (V705, (EInt 620))]); ("potency_no_pos", [(V70, (EInt 500)); (V705, (EInt 570))])]); (100,
  [("potency", [(V70, (EInt 550)); (V705, (EInt 620))]); ("potency_no_pos", [(V70, (EInt 500)); (V705, (EInt 570))])])]);
  ("Swiftskin's Venom", [(90, [("duration", [(V70, (EBin BMul (EInt 30) (EInt 1000)))])]); (100, [("duration", [(V70, (EBin BMul (EInt 30) (EInt
  1000)))])])]);
  ("Swiftskin's Coil", [(90, [("potency", [(V70, (EInt 550)); (V705, (EInt 620))]); ("potency_no_pos", [(V70, (EInt 500)); (V705, (EInt 570))])]);
  (100, [("potency", [(V70, (EInt 550)); (V705, (EInt 620))]); ("potency_no_pos", [(V70, (EInt 500)); (V705, (EInt 570))])])]);
  ("Pit of Dread", [(90, [("potency", [(V70, (EInt 200))])]); (100, [("potency", [(V70, (EInt 200))])])]);
  ("Vicepit", [(90, [("potency", [(V705, (EInt 220))])]); (100, [("potency", [(V705, (EInt 220))])])]);
  ("Fellhunter's Venom", [(90, [("duration", [(V70, (EBin BMul (EInt 30) (EInt 1000)))])]); (100, [("duration", [(V70, (EBin BMul (EInt 30) (EInt
  1000)))])])]);
  ("Hunter's Den", [(90, [("potency", [(V70, (EInt 250)); (V705, (EInt 280))])]); (100, [("potency", [(V70, (EInt 250)); (V705, (EInt 280))])])]);
  ("Fellskin's Venom", [(90, [("duration", [(V70, (EBin BMul (EInt 30) (EInt 1000)))])]); (100, [("duration", [(V70, (EBin BMul (EInt 30) (EInt
  1000)))])])]);
  ("Swiftskin's Den", [(90, [("potency", [(V70, (EInt 250)); (V705, (EInt 280))])]); (100, [("potency", [(V70, (EInt 250)); (V705, (EInt 280))])])]);
  ("Twinfang Bite", [(90, [("potency", [(V70, (EInt 100)); (V705, (EInt 120))]); ("potency_venom", [(V70, (EInt 150)); (V705, (EInt 170))])]); (100,
  [("potency", [(V70, (EInt 100)); (V705, (EInt 120))]); ("potency_venom", [(V70, (EInt 150)); (V705, (EInt 170))])])]);
  ("Twinblood Bite", [(90, [("potency", [(V70, (EInt 100)); (V705, (EInt 120))]); ("potency_venom", [(V70, (EInt 150)); (V705, (EInt 170))])]); (100,
  [("potency", [(V70, (EInt 100)); (V705, (EInt 120))]); ("potency_venom", [(V70, (EInt 150)); (V705, (EInt 170))])])]);
  ("Twinfang Thresh", [(90, [("potency", [(V70, (EInt 50))]); ("potency_venom", [(V70, (EInt 80))])]); (100, [("potency", [(V70, (EInt 50))]);
  ("potency_venom", [(V70, (EInt 80))])])]);
  ("Twinblood Thresh", [(90, [("potency", [(V70, (EInt 50))]); ("potency_venom", [(V70, (EInt 80))])]); (100, [("potency", [(V70, (EInt 50))]);
  ("potency_venom", [(V70, (EInt 80))])])]);
  ("Poised for Twinfang", [(90, [("duration", [(V70, (EBin BMul (EInt 60) (EInt 1000)))])]); (100, [("duration", [(V70, (EBin BMul (EInt 60) (EInt
  1000)))])])]);
  ("Uncoiled Fury", [(90, [("potency", [(V70, (EInt 600)); (V705, (EInt 680))])]); (100, [("potency", [(V70, (EInt 600)); (V705, (EInt 680))])])]);
  ("Reawaken", [(90, [("potency", [(V70, (EInt 700)); (V705, (EInt 750))])]); (100, [("potency", [(V70, (EInt 700)); (V705, (EInt 750))])])]);
  ("First Generation", [(90, [("potency", [(V70, (EInt 600)); (V705, (EInt 680))]); ("potency_no_combo", [(V70, (EInt 400)); (V705, (EInt 480))])]);
  (100, [("potency", [(V70, (EInt 600)); (V705, (EInt 680))]); ("potency_no_combo", [(V70, (EInt 400)); (V705, (EInt 480))])])]);
  ("Second Generation", [(90, [("potency", [(V70, (EInt 600)); (V705, (EInt 680))]); ("potency_no_combo", [(V70, (EInt 400)); (V705, (EInt 480))])]);
  (100, [("potency", [(V70, (EInt 600)); (V705, (EInt 680))]); ("potency_no_combo", [(V70, (EInt 400)); (V705, (EInt 480))])])]);
  ("Third Generation", [(90, [("potency", [(V70, (EInt 600)); (V705, (EInt 680))]); ("potency_no_combo", [(V70, (EInt 400)); (V705, (EInt 480))])]);
  (100, [("potency", [(V70, (EInt 600)); (V705, (EInt 680))]); ("potency_no_combo", [(V70, (EInt 400)); (V705, (EInt 480))])])]);
  ("Fourth Generation", [(90, [("potency", [(V70, (EInt 600)); (V705, (EInt 680))]); ("potency_no_combo", [(V70, (EInt 400)); (V705, (EInt 480))])]);
  (100, [("potency", [(V70, (EInt 600)); (V705, (EInt 680))]); ("potency_no_combo", [(V70, (EInt 400)); (V705, (EInt 480))])])]);
  ("Poised for Twinblood", [(90, [("duration", [(V70, (EBin BMul (EInt 60) (EInt 1000)))])]); (100, [("duration", [(V70, (EBin BMul (EInt 60) (EInt
  1000)))])])]);
  ("Uncoiled Twinfang", [(100, [("potency", [(V70, (EInt 100)); (V705, (EInt 120))]); ("potency_poised", [(V70, (EInt 150)); (V705, (EInt 170))])])]);
  ("Uncoiled Twinblood", [(100, [("potency", [(V70, (EInt 100)); (V705, (EInt 120))]); ("potency_poised", [(V70, (EInt 150)); (V705, (EInt
  170))])])]);
  ("Ouroboros", [(100, [("potency", [(V70, (EInt 1050)); (V705, (EInt 1150))])])]);
  ("First Legacy", [(100, [("potency", [(V70, (EInt 250)); (V705, (EInt 280))])])]);
  ("Second Legacy", [(100, [("potency", [(V70, (EInt 250)); (V705, (EInt 280))])])]);
  ("Third Legacy", [(100, [("potency", [(V70, (EInt 250)); (V705, (EInt 280))])])]);
  ("Fourth Legacy", [(100, [("potency", [(V70, (EInt 250)); (V705, (EInt 280))])])])].

(** simulator/game_data/class_skills/melee/vpr.py lines 31-44: get_combo_breakers *)
Definition vpr_m0 : pmethod := mkMethod "get_combo_breakers" []
  [SRet (ETup [(ETup [(EInt 0); (ETup [(EInt 1); (EInt 2); (EInt 3); (EInt 4)])]); (ETup [(EInt 1); (ETup [(EInt 0); (EInt 2); (EInt 3); (EInt 4)])]);
  (ETup [(EInt 2); (ETup [(EInt 0); (EInt 1); (EInt 3); (EInt 4)])]); (ETup [(EInt 3); (ETup [(EInt 0); (EInt 1); (EInt 2); (EInt 4)])]); (ETup [(EInt
  4); (ETup [(EInt 0); (EInt 1); (EInt 2); (EInt 3)])])])].

(** simulator/game_data/class_skills/melee/vpr.py lines 49-70: __get_venom_follow_up *)
Definition vpr_m1 : pmethod := mkMethod "__get_venom_follow_up" [("name", None); ("skill_allowlist", None); ("duration", None);
  ("expires_status_effects", Some (ECall "tuple" [] [])); ("delay_after_parent_application", Some (EInt 0))]
  [SRet (ECall "FollowUp" [] [("skill", (ECall "Skill" [] [("name", (EVar "name")); ("buff_spec", (ECall "StatusEffectSpec" []
  [("add_to_skill_modifier_condition", (EBool true)); ("duration", (EVar "duration")); ("num_uses", (EInt 1)); ("skill_allowlist", (EVar
  "skill_allowlist")); ("expires_status_effects", (EVar "expires_status_effects"))]))])); ("delay_after_parent_application", (EVar
  "delay_after_parent_application")); ("primary_target_only", (EBool true))])].

(** simulator/game_data/class_skills/melee/vpr.py lines 73-82: auto *)
Definition vpr_m2 : pmethod := mkMethod "auto" []
  [SAsg "name" (EStr "Auto"); SRet (ECall "Skill" [] [("name", (EVar "name")); ("is_GCD", (EBool false)); ("timing_spec", (ESelf "auto_timing_spec"));
  ("damage_spec", (ECall "DamageSpec" [] [("potency", (EInt 90)); ("damage_class", (EConst "DamageClass.AUTO")); ("trait_damage_mult_override", (EInt
  1))]))])].

(** simulator/game_data/class_skills/melee/vpr.py lines 85-117: steel_fangs *)
Definition vpr_m3 : pmethod := mkMethod "steel_fangs" []
  [SAsg "honed_reavers_follow_up" (EIf (EVer OGe V705) (ECall "FollowUp" [] [("skill", (ECall "Skill" [] [("name", (EStr "Honed Reavers"));
  ("buff_spec", (ECall "StatusEffectSpec" [] [("add_to_skill_modifier_condition", (EBool true)); ("duration", (EBin BMul (EInt 60) (EInt 1000)));
  ("num_uses", (EInt 1)); ("skill_allowlist", (ETup [(EStr "Reaving Fangs"); (EStr "Reaving Maw")])); ("expires_status_effects", (ETup [(EStr
  "Honed Steel")]))]))])); ("delay_after_parent_application", (EInt 0)); ("primary_target_only", (EBool true))]) ENone); SAsg "name" (EStr
  "Steel Fangs"); SRet (ECall "Skill" [] [("name", (EVar "name")); ("is_GCD", (EBool true)); ("damage_spec", (EData (EVar "name") (EStr
  "damage_spec"))); ("timing_spec", (ECall "TimingSpec" [] [("base_cast_time", (EInt 0)); ("animation_lock", (EInt 650)); ("application_delay", (EInt
  1160))])); ("follow_up_skills", (EIf (EVer OGe V705) (ETup [(EVar "honed_reavers_follow_up")]) (ECall "tuple" [] [])))])].

(** simulator/game_data/class_skills/melee/vpr.py lines 119-131: __get_hunters_instinct_follow_up *)
Definition vpr_m4 : pmethod := mkMethod "__get_hunters_instinct_follow_up" []
  [SAsg "name" (EStr "Hunter's Instinct"); SRet (ECall "FollowUp" [] [("skill", (ECall "Skill" [] [("name", (EVar "name")); ("buff_spec", (ECall
  "StatusEffectSpec" [] [("damage_mult", (EFlt 11 10)); ("duration", (EData (EVar "name") (EStr "duration")))]))]));
  ("delay_after_parent_application", (EInt 0)); ("primary_target_only", (EBool true))])].

(** simulator/game_data/class_skills/melee/vpr.py lines 134-144: hunters_sting *)
Definition vpr_m5 : pmethod := mkMethod "hunters_sting" []
  [SAsg "name" (EStr "Hunter's Sting"); SRet (ECall "Skill" [] [("name", (EVar "name")); ("is_GCD", (EBool true)); ("damage_spec", (ECall "DamageSpec"
  [] [("potency", (EPot (EVar "name")))])); ("timing_spec", (ECall "TimingSpec" [] [("base_cast_time", (EInt 0)); ("animation_lock", (EInt 650));
  ("application_delay", (EInt 890))])); ("follow_up_skills", (ETup [(EMeth "__get_hunters_instinct_follow_up" [] [])]))])].

(** simulator/game_data/class_skills/melee/vpr.py lines 146-161: __get_noxious_gnash_follow_up *)
Definition vpr_m6 : pmethod := mkMethod "__get_noxious_gnash_follow_up" []
  [SIf (EVer OGe V705) [SRet ENone] []; SAsg "name" (EStr "Noxious Gnash"); SRet (ECall "FollowUp" [] [("skill", (ECall "Skill" [] [("name", (EVar
  "name")); ("debuff_spec", (ECall "StatusEffectSpec" [] [("damage_mult", (EFlt 11 10)); ("duration", (EData (EVar "name") (EStr "duration")));
  ("max_duration", (EData (EVar "name") (EStr "max_duration")))]))])); ("delay_after_parent_application", (EInt 0)); ("primary_target_only", (EBool
  true))])].

(** simulator/game_data/class_skills/melee/vpr.py lines 163-180: __get_honed_steel_follow_up *)
Definition vpr_m7 : pmethod := mkMethod "__get_honed_steel_follow_up" []
  [SIf (EVer OLe V701) [SRet ENone] []; SAsg "name" (EStr "Honed Steel"); SRet (ECall "FollowUp" [] [("skill", (ECall "Skill" [] [("name", (EVar
  "name")); ("buff_spec", (ECall "StatusEffectSpec" [] [("add_to_skill_modifier_condition", (EBool true)); ("duration", (EBin BMul (EInt 60) (EInt
  1000))); ("num_uses", (EInt 1)); ("skill_allowlist", (ETup [(EStr "Steel Fangs"); (EStr "Steel Maw")])); ("expires_status_effects", (ETup [(EStr
  "Honed Reavers")]))]))])); ("delay_after_parent_application", (EInt 0)); ("primary_target_only", (EBool true))])].

(** simulator/game_data/class_skills/melee/vpr.py lines 183-195: dread_fangs *)
Definition vpr_m8 : pmethod := mkMethod "dread_fangs" []
  [SIf (EVer OGe V705) [SRet ENone] []; SAsg "name" (EStr "Dread Fangs"); SRet (ECall "Skill" [] [("name", (EVar "name")); ("is_GCD", (EBool true));
  ("damage_spec", (ECall "DamageSpec" [] [("potency", (EPot (EVar "name")))])); ("timing_spec", (ECall "TimingSpec" [] [("base_cast_time", (EInt 0));
  ("animation_lock", (EInt 650)); ("application_delay", (EInt 1290))])); ("follow_up_skills", (ETup [(EMeth "__get_noxious_gnash_follow_up" []
  [])]))])].

(** simulator/game_data/class_skills/melee/vpr.py lines 198-219: reaving_fangs *)
Definition vpr_m9 : pmethod := mkMethod "reaving_fangs" []
  [SIf (EVer OLe V701) [SRet ENone] []; SAsg "name" (EStr "Reaving Fangs"); SRet (ECall "Skill" [] [("name", (EVar "name")); ("is_GCD", (EBool true));
  ("damage_spec", (EDict [((EConst "SimConsts.DEFAULT_CONDITION"), (ECall "DamageSpec" [] [("potency", (EPot (EVar "name")))])); ((EStr
  "Honed Reavers"), (ECall "DamageSpec" [] [("potency", (EData (EVar "name") (EStr "potency_honed_reavers")))]))])); ("timing_spec", (ECall
  "TimingSpec" [] [("base_cast_time", (EInt 0)); ("animation_lock", (EInt 650)); ("application_delay", (EInt 1290))])); ("follow_up_skills", (ETup
  [(EMeth "__get_honed_steel_follow_up" [] [])]))])].

(** simulator/game_data/class_skills/melee/vpr.py lines 222-231: writhing_snap *)
Definition vpr_m10 : pmethod := mkMethod "writhing_snap" []
  [SAsg "name" (EStr "Writhing Snap"); SRet (ECall "Skill" [] [("name", (EVar "name")); ("is_GCD", (EBool true)); ("damage_spec", (ECall "DamageSpec"
  [] [("potency", (EPot (EVar "name")))])); ("timing_spec", (ECall "TimingSpec" [] [("base_cast_time", (EInt 0)); ("animation_lock", (EInt 650));
  ("application_delay", (EInt 490))]))])].

(** simulator/game_data/class_skills/melee/vpr.py lines 233-246: __get_swift_scaled_follow_up *)
Definition vpr_m11 : pmethod := mkMethod "__get_swift_scaled_follow_up" []
  [SAsg "name" (EStr "Swiftscaled"); SRet (ECall "FollowUp" [] [("skill", (ECall "Skill" [] [("name", (EVar "name")); ("buff_spec", (ECall
  "StatusEffectSpec" [] [("haste_time_reduction", (EFlt 3 20)); ("auto_attack_delay_reduction", (EFlt 3 20)); ("duration", (EData (EVar "name") (EStr
  "duration")))]))])); ("delay_after_parent_application", (EInt 0)); ("primary_target_only", (EBool true))])].

(** simulator/game_data/class_skills/melee/vpr.py lines 249-259: swiftskins_sting *)
Definition vpr_m12 : pmethod := mkMethod "swiftskins_sting" []
  [SAsg "name" (EStr "Swiftskin's Sting"); SRet (ECall "Skill" [] [("name", (EVar "name")); ("is_GCD", (EBool true)); ("damage_spec", (ECall
  "DamageSpec" [] [("potency", (EPot (EVar "name")))])); ("timing_spec", (ECall "TimingSpec" [] [("base_cast_time", (EInt 0)); ("animation_lock",
  (EInt 650)); ("application_delay", (EInt 1160))])); ("follow_up_skills", (ETup [(EMeth "__get_swift_scaled_follow_up" [] [])]))])].

(** simulator/game_data/class_skills/melee/vpr.py lines 262-272: steel_maw *)
Definition vpr_m13 : pmethod := mkMethod "steel_maw" []
  [SAsg "name" (EStr "Steel Maw"); SRet (ECall "Skill" [] [("name", (EVar "name")); ("is_GCD", (EBool true)); ("timing_spec", (ECall "TimingSpec" []
  [("base_cast_time", (EInt 0)); ("animation_lock", (EInt 650)); ("application_delay", (EInt 1020))])); ("damage_spec", (EData (EVar "name") (EStr
  "damage_spec"))); ("has_aoe", (EBool true))])].

(** simulator/game_data/class_skills/melee/vpr.py lines 275-320: flanksting_strike *)
Definition vpr_m14 : pmethod := mkMethod "flanksting_strike" []
  [SAsg "venom_name" (EStr "Hindstung Venom"); SAsg "hindstung_venom_follow_up" (EMeth "__get_venom_follow_up" [(EVar "venom_name"); (ETup [(EStr
  "Hindsting Strike")]); (EData (EVar "venom_name") (EStr "duration")); (ETup [(EStr "Hindsbane Venom"); (EStr "Flanksbane Venom"); (EStr
  "Flankstung Venom"); (EStr "Grimskin's Venom"); (EStr "Grimhunter's Venom")])] []); SAsg "name" (EStr "Flanksting Strike"); SRet (ECall "Skill" []
  [("name", (EVar "name")); ("is_GCD", (EBool true)); ("damage_spec", (EDict [((EConst "SimConsts.DEFAULT_CONDITION"), (ECall "DamageSpec" []
  [("potency", (EPot (EVar "name"))); ("use_min_potency", (ESelf "__combo_base_potency_no_venom"))])); ((EStr "No Positional"), (ECall "DamageSpec" []
  [("potency", (EPotNP (EVar "name"))); ("use_min_potency", (ESelf "__combo_base_potency_no_venom"))])); ((EStr "Flankstung Venom"), (ECall
  "DamageSpec" [] [("potency", (EData (EVar "name") (EStr "potency_venom"))); ("use_min_potency", (ESelf "__combo_base_potency_with_venom"))]));
  ((EStr "Flankstung Venom, No Positional"), (ECall "DamageSpec" [] [("potency", (EData (EVar "name") (EStr "potency_no_pos_venom")));
  ("use_min_potency", (ESelf "__combo_base_potency_with_venom"))]))])); ("timing_spec", (ECall "TimingSpec" [] [("base_cast_time", (EInt 0));
  ("animation_lock", (EInt 650)); ("application_delay", (EInt 620))])); ("follow_up_skills", (ETup [(EVar "hindstung_venom_follow_up")]))])].

(** simulator/game_data/class_skills/melee/vpr.py lines 323-369: flanksbane_fang *)
Definition vpr_m15 : pmethod := mkMethod "flanksbane_fang" []
  [SAsg "venom_name" (EStr "Hindsbane Venom"); SAsg "hindsbane_venom_follow_up" (EMeth "__get_venom_follow_up" [(EVar "venom_name"); (ETup [(EStr
  "Hindsbane Fang")]); (EData (EVar "venom_name") (EStr "duration")); (ETup [(EStr "Hindstung Venom"); (EStr "Flanksbane Venom"); (EStr
  "Flankstung Venom"); (EStr "Grimskin's Venom"); (EStr "Grimhunter's Venom")])] []); SAsg "name" (EStr "Flanksbane Fang"); SRet (ECall "Skill" []
  [("name", (EVar "name")); ("is_GCD", (EBool true)); ("damage_spec", (EDict [((EConst "SimConsts.DEFAULT_CONDITION"), (ECall "DamageSpec" []
  [("potency", (EPot (EVar "name"))); ("use_min_potency", (ESelf "__combo_base_potency_no_venom"))])); ((EStr "No Positional"), (ECall "DamageSpec" []
  [("potency", (EPotNP (EVar "name"))); ("use_min_potency", (ESelf "__combo_base_potency_no_venom"))])); ((EStr "Flanksbane Venom"), (ECall
  "DamageSpec" [] [("potency", (EData (EVar "name") (EStr "potency_venom"))); ("use_min_potency", (ESelf "__combo_base_potency_with_venom"))]));
  ((EStr "Flanksbane Venom, No Positional"), (ECall "DamageSpec" [] [("potency", (EData (EVar "name") (EStr "potency_no_pos_venom")));
  ("use_min_potency", (ESelf "__combo_base_potency_with_venom"))]))])); ("timing_spec", (ECall "TimingSpec" [] [("base_cast_time", (EInt 0));
  ("animation_lock", (EInt 650)); ("application_delay", (EInt 620))])); ("follow_up_skills", (ETup [(EVar "hindsbane_venom_follow_up")]))])].

(** simulator/game_data/class_skills/melee/vpr.py lines 372-417: hindsting_strike *)
Definition vpr_m16 : pmethod := mkMethod "hindsting_strike" []
  [SAsg "venom_name" (EStr "Flanksbane Venom"); SAsg "flanksbane_venom_follow_up" (EMeth "__get_venom_follow_up" [(EVar "venom_name"); (ETup [(EStr
  "Flanksbane Fang")]); (EData (EVar "venom_name") (EStr "duration")); (ETup [(EStr "Hindstung Venom"); (EStr "Hindsbane Venom"); (EStr
  "Flankstung Venom"); (EStr "Grimskin's Venom"); (EStr "Grimhunter's Venom")])] []); SAsg "name" (EStr "Hindsting Strike"); SRet (ECall "Skill" []
  [("name", (EVar "name")); ("is_GCD", (EBool true)); ("damage_spec", (EDict [((EConst "SimConsts.DEFAULT_CONDITION"), (ECall "DamageSpec" []
  [("potency", (EPot (EVar "name"))); ("use_min_potency", (ESelf "__combo_base_potency_no_venom"))])); ((EStr "No Positional"), (ECall "DamageSpec" []
  [("potency", (EPotNP (EVar "name"))); ("use_min_potency", (ESelf "__combo_base_potency_no_venom"))])); ((EStr "Hindstung Venom"), (ECall
  "DamageSpec" [] [("potency", (EData (EVar "name") (EStr "potency_venom"))); ("use_min_potency", (ESelf "__combo_base_potency_with_venom"))]));
  ((EStr "Hindstung Venom, No Positional"), (ECall "DamageSpec" [] [("potency", (EData (EVar "name") (EStr "potency_no_pos_venom")));
  ("use_min_potency", (ESelf "__combo_base_potency_with_venom"))]))])); ("timing_spec", (ECall "TimingSpec" [] [("base_cast_time", (EInt 0));
  ("animation_lock", (EInt 650)); ("application_delay", (EInt 620))])); ("follow_up_skills", (ETup [(EVar "flanksbane_venom_follow_up")]))])].

(** simulator/game_data/class_skills/melee/vpr.py lines 420-463: hindsbane_fang *)
Definition vpr_m17 : pmethod := mkMethod "hindsbane_fang" []
  [SAsg "venom_name" (EStr "Flankstung Venom"); SAsg "flankstung_venom_follow_up" (EMeth "__get_venom_follow_up" [(EVar "venom_name"); (ETup [(EStr
  "Flanksting Strike")]); (EData (EVar "venom_name") (EStr "duration")); (ETup [(EStr "Hindstung Venom"); (EStr "Hindsbane Venom"); (EStr
  "Flanksbane Venom"); (EStr "Grimskin's Venom"); (EStr "Grimhunter's Venom")])] []); SAsg "name" (EStr "Hindsbane Fang"); SRet (ECall "Skill" []
  [("name", (EVar "name")); ("is_GCD", (EBool true)); ("damage_spec", (EDict [((EConst "SimConsts.DEFAULT_CONDITION"), (ECall "DamageSpec" []
  [("potency", (EPot (EVar "name"))); ("use_min_potency", (ESelf "__combo_base_potency_no_venom"))])); ((EStr "No Positional"), (ECall "DamageSpec" []
  [("potency", (EPotNP (EVar "name"))); ("use_min_potency", (ESelf "__combo_base_potency_no_venom"))])); ((EStr "Hindsbane Venom"), (ECall
  "DamageSpec" [] [("potency", (EData (EVar "name") (EStr "potency_venom"))); ("use_min_potency", (ESelf "__combo_base_potency_with_venom"))]));
  ((EStr "Hindsbane Venom, No Positional"), (ECall "DamageSpec" [] [("potency", (EData (EVar "name") (EStr "potency_no_pos_venom")));
  ("use_min_potency", (ESelf "__combo_base_potency_with_venom"))]))])); ("timing_spec", (ECall "TimingSpec" [] [("base_cast_time", (EInt 0));
  ("animation_lock", (EInt 650)); ("application_delay", (EInt 620))])); ("follow_up_skills", (ETup [(EVar "flankstung_venom_follow_up")]))])].

(** simulator/game_data/class_skills/melee/vpr.py lines 466-479: dread_maw *)
Definition vpr_m18 : pmethod := mkMethod "dread_maw" []
  [SIf (EVer OGe V705) [SRet ENone] []; SAsg "name" (EStr "Dread Maw"); SRet (ECall "Skill" [] [("name", (EVar "name")); ("is_GCD", (EBool true));
  ("damage_spec", (ECall "DamageSpec" [] [("potency", (EPot (EVar "name")))])); ("timing_spec", (ECall "TimingSpec" [] [("base_cast_time", (EInt 0));
  ("animation_lock", (EInt 650)); ("application_delay", (EInt 620))])); ("follow_up_skills", (ETup [(EMeth "__get_noxious_gnash_follow_up" [] [])]));
  ("has_aoe", (EBool true))])].

(** simulator/game_data/class_skills/melee/vpr.py lines 482-504: reaving_maw *)
Definition vpr_m19 : pmethod := mkMethod "reaving_maw" []
  [SIf (EVer OLe V701) [SRet ENone] []; SAsg "name" (EStr "Reaving Maw"); SRet (ECall "Skill" [] [("name", (EVar "name")); ("is_GCD", (EBool true));
  ("damage_spec", (EDict [((EConst "SimConsts.DEFAULT_CONDITION"), (ECall "DamageSpec" [] [("potency", (EPot (EVar "name")))])); ((EStr
  "Honed Reavers"), (ECall "DamageSpec" [] [("potency", (EData (EVar "name") (EStr "potency_honed_reavers")))]))])); ("timing_spec", (ECall
  "TimingSpec" [] [("base_cast_time", (EInt 0)); ("animation_lock", (EInt 650)); ("application_delay", (EInt 620))])); ("follow_up_skills", (ETup
  [(EMeth "__get_honed_steel_follow_up" [] [])])); ("has_aoe", (EBool true))])].

(** simulator/game_data/class_skills/melee/vpr.py lines 507-518: hunters_bite *)
Definition vpr_m20 : pmethod := mkMethod "hunters_bite" []
  [SAsg "name" (EStr "Hunter's Bite"); SRet (ECall "Skill" [] [("name", (EVar "name")); ("is_GCD", (EBool true)); ("damage_spec", (ECall "DamageSpec"
  [] [("potency", (EPot (EVar "name")))])); ("timing_spec", (ECall "TimingSpec" [] [("base_cast_time", (EInt 0)); ("animation_lock", (EInt 650));
  ("application_delay", (EInt 1070))])); ("follow_up_skills", (ETup [(EMeth "__get_hunters_instinct_follow_up" [] [])])); ("has_aoe", (EBool
  true))])].

(** simulator/game_data/class_skills/melee/vpr.py lines 521-532: swiftskins_bite *)
Definition vpr_m21 : pmethod := mkMethod "swiftskins_bite" []
  [SAsg "name" (EStr "Swiftskin's Bite"); SRet (ECall "Skill" [] [("name", (EVar "name")); ("is_GCD", (EBool true)); ("damage_spec", (ECall
  "DamageSpec" [] [("potency", (EPot (EVar "name")))])); ("timing_spec", (ECall "TimingSpec" [] [("base_cast_time", (EInt 0)); ("animation_lock",
  (EInt 650)); ("application_delay", (EInt 1380))])); ("follow_up_skills", (ETup [(EMeth "__get_swift_scaled_follow_up" [] [])])); ("has_aoe", (EBool
  true))])].

(** simulator/game_data/class_skills/melee/vpr.py lines 535-569: jagged_maw *)
Definition vpr_m22 : pmethod := mkMethod "jagged_maw" []
  [SAsg "venom_name" (EStr "Grimskin's Venom"); SAsg "grimskins_venom_follow_up" (EMeth "__get_venom_follow_up" [(EVar "venom_name"); (ETup [(EStr
  "Bloodied Maw")]); (EData (EVar "venom_name") (EStr "duration")); (ETup [(EStr "Hindstung Venom"); (EStr "Hindsbane Venom"); (EStr
  "Flanksbane Venom"); (EStr "Flankstung Venom"); (EStr "Grimhunter's Venom")])] []); SAsg "name" (EStr "Jagged Maw"); SRet (ECall "Skill" []
  [("name", (EVar "name")); ("is_GCD", (EBool true)); ("damage_spec", (EDict [((EConst "SimConsts.DEFAULT_CONDITION"), (ECall "DamageSpec" []
  [("potency", (EPot (EVar "name")))])); ((EStr "Grimhunter's Venom"), (ECall "DamageSpec" [] [("potency", (EData (EVar "name") (EStr
  "potency_venom")))]))])); ("timing_spec", (ECall "TimingSpec" [] [("base_cast_time", (EInt 0)); ("animation_lock", (EInt 650));
  ("application_delay", (EInt 620))])); ("follow_up_skills", (ETup [(EVar "grimskins_venom_follow_up")])); ("has_aoe", (EBool true))])].

(** simulator/game_data/class_skills/melee/vpr.py lines 572-606: bloodied_maw *)
Definition vpr_m23 : pmethod := mkMethod "bloodied_maw" []
  [SAsg "venom_name" (EStr "Grimhunter's Venom"); SAsg "grimhunters_venom_follow_up" (EMeth "__get_venom_follow_up" [(EVar "venom_name"); (ETup [(EStr
  "Jagged Maw")]); (EData (EVar "venom_name") (EStr "duration")); (ETup [(EStr "Hindstung Venom"); (EStr "Hindsbane Venom"); (EStr
  "Flanksbane Venom"); (EStr "Flankstung Venom"); (EStr "Grimskin's Venom")])] []); SAsg "name" (EStr "Bloodied Maw"); SRet (ECall "Skill" []
  [("name", (EVar "name")); ("is_GCD", (EBool true)); ("damage_spec", (EDict [((EConst "SimConsts.DEFAULT_CONDITION"), (ECall "DamageSpec" []
  [("potency", (EPot (EVar "name")))])); ((EStr "Grimskin's Venom"), (ECall "DamageSpec" [] [("potency", (EData (EVar "name") (EStr
  "potency_venom")))]))])); ("timing_spec", (ECall "TimingSpec" [] [("base_cast_time", (EInt 0)); ("animation_lock", (EInt 650));
  ("application_delay", (EInt 620))])); ("follow_up_skills", (ETup [(EVar "grimhunters_venom_follow_up")])); ("has_aoe", (EBool true))])].

(** simulator/game_data/class_skills/melee/vpr.py lines 609-618: death_rattle *)
Definition vpr_m24 : pmethod := mkMethod "death_rattle" []
  [SAsg "name" (EStr "Death Rattle"); SRet (ECall "Skill" [] [("name", (EVar "name")); ("is_GCD", (EBool false)); ("damage_spec", (ECall "DamageSpec"
  [] [("potency", (EPot (EVar "name")))])); ("timing_spec", (ECall "TimingSpec" [] [("base_cast_time", (EInt 0)); ("animation_lock", (EInt 650));
  ("application_delay", (EInt 1700))]))])].

(** simulator/game_data/class_skills/melee/vpr.py lines 621-631: last_lash *)
Definition vpr_m25 : pmethod := mkMethod "last_lash" []
  [SAsg "name" (EStr "Last Lash"); SRet (ECall "Skill" [] [("name", (EVar "name")); ("is_GCD", (EBool false)); ("damage_spec", (ECall "DamageSpec" []
  [("potency", (EPot (EVar "name")))])); ("timing_spec", (ECall "TimingSpec" [] [("base_cast_time", (EInt 0)); ("animation_lock", (EInt 650));
  ("application_delay", (EInt 1160))])); ("has_aoe", (EBool true))])].

(** simulator/game_data/class_skills/melee/vpr.py lines 634-649: dreadwinder *)
Definition vpr_m26 : pmethod := mkMethod "dreadwinder" []
  [SIf (EVer OGe V705) [SRet ENone] []; SAsg "name" (EStr "Dreadwinder"); SRet (ECall "Skill" [] [("name", (EVar "name")); ("is_GCD", (EBool true));
  ("damage_spec", (ECall "DamageSpec" [] [("potency", (EPot (EVar "name")))])); ("timing_spec", (ECall "TimingSpec" [] [("base_cast_time", (EInt 0));
  ("animation_lock", (EInt 650)); ("application_delay", (EInt 580)); ("gcd_base_recast_time", (EInt 3000))])); ("follow_up_skills", (ETup [(EMeth
  "__get_noxious_gnash_follow_up" [] [])]))])].

(** simulator/game_data/class_skills/melee/vpr.py lines 652-666: vicewinder *)
Definition vpr_m27 : pmethod := mkMethod "vicewinder" []
  [SIf (EVer OLe V701) [SRet ENone] []; SAsg "name" (EStr "Vicewinder"); SRet (ECall "Skill" [] [("name", (EVar "name")); ("is_GCD", (EBool true));
  ("damage_spec", (ECall "DamageSpec" [] [("potency", (EPot (EVar "name")))])); ("timing_spec", (ECall "TimingSpec" [] [("base_cast_time", (EInt 0));
  ("animation_lock", (EInt 650)); ("application_delay", (EInt 580)); ("gcd_base_recast_time", (EInt 3000))]))])].

(** simulator/game_data/class_skills/melee/vpr.py lines 668-672: __get_hunters_venom_follow_up *)
Definition vpr_m28 : pmethod := mkMethod "__get_hunters_venom_follow_up" []
  [SAsg "name" (EStr "Hunter's Venom"); SRet (EMeth "__get_venom_follow_up" [(EVar "name"); (ETup [(EStr "Twinfang Bite")]); (EData (EVar "name")
  (EStr "duration"))] [])].

(** simulator/game_data/class_skills/melee/vpr.py lines 675-717: hunters_coil *)
Definition vpr_m29 : pmethod := mkMethod "hunters_coil" []
  [SAsg "name" (EStr "Hunter's Coil"); SAsg "hunters_coil_follow_up" (ECall "FollowUp" [] [("skill", (ECall "Skill" [] [("name", (EVar "name"));
  ("damage_spec", (ECall "DamageSpec" [] [("potency", (EPot (EVar "name")))]))])); ("delay_after_parent_application", (EInt 980))]); SAsg
  "hunters_coil_no_pos_follow_up" (ECall "FollowUp" [] [("skill", (ECall "Skill" [] [("name", (EVar "name")); ("damage_spec", (ECall "DamageSpec" []
  [("potency", (EPotNP (EVar "name")))]))])); ("delay_after_parent_application", (EInt 980))]); SAsg "hunters_instinct_follow_up" (EMeth
  "__get_hunters_instinct_follow_up" [] []); SAsg "hunters_venom_follow_up" (EMeth "__get_hunters_venom_follow_up" [] []); SRet (ECall "Skill" []
  [("name", (EVar "name")); ("combo_spec", (ETup [(ECall "ComboSpec" [] [("combo_group", (EInt 0))])])); ("is_GCD", (EBool true)); ("timing_spec",
  (ECall "TimingSpec" [] [("base_cast_time", (EInt 0)); ("animation_lock", (EInt 650)); ("application_delay", (EInt 0)); ("gcd_base_recast_time",
  (EInt 3000))])); ("follow_up_skills", (EDict [((EConst "SimConsts.DEFAULT_CONDITION"), (ETup [(EVar "hunters_coil_follow_up"); (EVar
  "hunters_instinct_follow_up"); (EVar "hunters_venom_follow_up")])); ((EStr "No Positional"), (ETup [(EVar "hunters_coil_no_pos_follow_up"); (EVar
  "hunters_instinct_follow_up"); (EVar "hunters_venom_follow_up")]))]))])].

(** simulator/game_data/class_skills/melee/vpr.py lines 719-723: __get_swiftskins_venom_follow_up *)
Definition vpr_m30 : pmethod := mkMethod "__get_swiftskins_venom_follow_up" []
  [SAsg "name" (EStr "Swiftskin's Venom"); SRet (EMeth "__get_venom_follow_up" [(EVar "name"); (ETup [(EStr "Twinblood Bite")]); (EData (EVar "name")
  (EStr "duration"))] [])].

(** simulator/game_data/class_skills/melee/vpr.py lines 726-750: swiftskins_coil *)
Definition vpr_m31 : pmethod := mkMethod "swiftskins_coil" []
  [SAsg "name" (EStr "Swiftskin's Coil"); SRet (ECall "Skill" [] [("name", (EVar "name")); ("is_GCD", (EBool true)); ("combo_spec", (ETup [(ECall
  "ComboSpec" [] [("combo_group", (EInt 1))])])); ("damage_spec", (EDict [((EConst "SimConsts.DEFAULT_CONDITION"), (ECall "DamageSpec" [] [("potency",
  (EPot (EVar "name")))])); ((EStr "No Positional"), (ECall "DamageSpec" [] [("potency", (EPotNP (EVar "name")))]))])); ("timing_spec", (ECall
  "TimingSpec" [] [("base_cast_time", (EInt 0)); ("animation_lock", (EInt 650)); ("application_delay", (EInt 620)); ("gcd_base_recast_time", (EInt
  3000))])); ("follow_up_skills", (ETup [(EMeth "__get_swift_scaled_follow_up" [] []); (EMeth "__get_swiftskins_venom_follow_up" [] [])]))])].

(** simulator/game_data/class_skills/melee/vpr.py lines 753-766: pit_of_dread *)
Definition vpr_m32 : pmethod := mkMethod "pit_of_dread" []
  [SIf (EVer OGe V705) [SRet ENone] []; SAsg "name" (EStr "Pit of Dread"); SRet (ECall "Skill" [] [("name", (EVar "name")); ("is_GCD", (EBool true));
  ("damage_spec", (ECall "DamageSpec" [] [("potency", (EPot (EVar "name")))])); ("timing_spec", (ECall "TimingSpec" [] [("base_cast_time", (EInt 0));
  ("animation_lock", (EInt 650)); ("application_delay", (EInt 760))])); ("follow_up_skills", (ETup [(EMeth "__get_noxious_gnash_follow_up" [] [])]));
  ("has_aoe", (EBool true))])].

(** simulator/game_data/class_skills/melee/vpr.py lines 769-781: vicepit *)
Definition vpr_m33 : pmethod := mkMethod "vicepit" []
  [SIf (EVer OLe V701) [SRet ENone] []; SAsg "name" (EStr "Vicepit"); SRet (ECall "Skill" [] [("name", (EVar "name")); ("is_GCD", (EBool true));
  ("damage_spec", (ECall "DamageSpec" [] [("potency", (EPot (EVar "name")))])); ("timing_spec", (ECall "TimingSpec" [] [("base_cast_time", (EInt 0));
  ("animation_lock", (EInt 650)); ("application_delay", (EInt 760))])); ("has_aoe", (EBool true))])].

(** simulator/game_data/class_skills/melee/vpr.py lines 783-789: __get_fellhunters_venom_follow_up *)
Definition vpr_m34 : pmethod := mkMethod "__get_fellhunters_venom_follow_up" []
  [SAsg "name" (EStr "Fellhunter's Venom"); SRet (EMeth "__get_venom_follow_up" [(EVar "name"); (ETup [(EStr "Twinfang Thresh")]); (EData (EVar
  "name") (EStr "duration"))] [])].

(** simulator/game_data/class_skills/melee/vpr.py lines 792-810: hunters_den *)
Definition vpr_m35 : pmethod := mkMethod "hunters_den" []
  [SAsg "name" (EStr "Hunter's Den"); SRet (ECall "Skill" [] [("name", (EVar "name")); ("is_GCD", (EBool true)); ("combo_spec", (ETup [(ECall
  "ComboSpec" [] [("combo_group", (EInt 2))])])); ("damage_spec", (ECall "DamageSpec" [] [("potency", (EPot (EVar "name")))])); ("timing_spec", (ECall
  "TimingSpec" [] [("base_cast_time", (EInt 0)); ("animation_lock", (EInt 650)); ("application_delay", (EInt 490)); ("gcd_base_recast_time", (EInt
  3000))])); ("follow_up_skills", (ETup [(EMeth "__get_hunters_instinct_follow_up" [] []); (EMeth "__get_fellhunters_venom_follow_up" [] [])]));
  ("has_aoe", (EBool true))])].

(** simulator/game_data/class_skills/melee/vpr.py lines 812-818: __get_fellskins_venom_follow_up *)
Definition vpr_m36 : pmethod := mkMethod "__get_fellskins_venom_follow_up" []
  [SAsg "name" (EStr "Fellskin's Venom"); SRet (EMeth "__get_venom_follow_up" [(EVar "name"); (ETup [(EStr "Twinblood Thresh")]); (EData (EVar "name")
  (EStr "duration"))] [])].

(** simulator/game_data/class_skills/melee/vpr.py lines 821-846: swiftskins_den *)
Definition vpr_m37 : pmethod := mkMethod "swiftskins_den" []
  [SAsg "name" (EStr "Swiftskin's Den"); SAsg "swiftskins_den_damage_followup" (ECall "FollowUp" [] [("skill", (ECall "Skill" [] [("name", (EVar
  "name")); ("damage_spec", (ECall "DamageSpec" [] [("potency", (EPot (EVar "name")))]))])); ("delay_after_parent_application", (EInt 790));
  ("primary_target_only", (EBool false))]); SRet (ECall "Skill" [] [("name", (EVar "name")); ("is_GCD", (EBool true)); ("combo_spec", (ETup [(ECall
  "ComboSpec" [] [("combo_group", (EInt 3))])])); ("timing_spec", (ECall "TimingSpec" [] [("base_cast_time", (EInt 0)); ("animation_lock", (EInt
  650)); ("application_delay", (EInt 0))])); ("follow_up_skills", (ETup [(EVar "swiftskins_den_damage_followup"); (EMeth
  "__get_swift_scaled_follow_up" [] []); (EMeth "__get_fellskins_venom_follow_up" [] [])])); ("has_aoe", (EBool true))])].

(** simulator/game_data/class_skills/melee/vpr.py lines 849-886: twinfang_bite *)
Definition vpr_m38 : pmethod := mkMethod "twinfang_bite" []
  [SAsg "name" (EStr "Twinfang Bite"); SAsg "twinfang_bite_damage_followup" (ECall "FollowUp" [] [("skill", (ECall "Skill" [] [("name", (EVar
  "name")); ("damage_spec", (ECall "DamageSpec" [] [("potency", (EPot (EVar "name")))]))])); ("delay_after_parent_application", (EInt 620))]); SAsg
  "twinfang_bite_damage_venom_followup" (ECall "FollowUp" [] [("skill", (ECall "Skill" [] [("name", (EVar "name")); ("damage_spec", (ECall
  "DamageSpec" [] [("potency", (EData (EVar "name") (EStr "potency_venom")))]))])); ("delay_after_parent_application", (EInt 620))]); SRet (ECall
  "Skill" [] [("name", (EVar "name")); ("is_GCD", (EBool false)); ("combo_spec", (ETup [(ECall "ComboSpec" [] [("combo_group", (EInt 0));
  ("combo_actions", (ETup [(EStr "Hunter's Coil")]))])])); ("timing_spec", (ECall "TimingSpec" [] [("base_cast_time", (EInt 0)); ("animation_lock",
  (EInt 650)); ("application_delay", (EInt 0))])); ("follow_up_skills", (EDict [((EConst "SimConsts.DEFAULT_CONDITION"), (ETup [(EVar
  "twinfang_bite_damage_followup"); (EMeth "__get_swiftskins_venom_follow_up" [] [])])); ((EStr "Hunter's Venom"), (ETup [(EVar
  "twinfang_bite_damage_venom_followup"); (EMeth "__get_swiftskins_venom_follow_up" [] [])])); ((EStr "Hunter's Venom, No Combo"), (ETup [(EVar
  "twinfang_bite_damage_venom_followup")])); ((EStr "No Combo"), (ETup [(EVar "twinfang_bite_damage_followup")]))]))])].

(** simulator/game_data/class_skills/melee/vpr.py lines 889-926: twinblood_bite *)
Definition vpr_m39 : pmethod := mkMethod "twinblood_bite" []
  [SAsg "name" (EStr "Twinblood Bite"); SAsg "twinblood_damage_follow_up" (ECall "FollowUp" [] [("skill", (ECall "Skill" [] [("name", (EVar "name"));
  ("damage_spec", (ECall "DamageSpec" [] [("potency", (EPot (EVar "name")))]))])); ("delay_after_parent_application", (EInt 670))]); SAsg
  "twinblood_damage_venom_follow_up" (ECall "FollowUp" [] [("skill", (ECall "Skill" [] [("name", (EVar "name")); ("damage_spec", (ECall "DamageSpec"
  [] [("potency", (EData (EVar "name") (EStr "potency_venom")))]))])); ("delay_after_parent_application", (EInt 670))]); SRet (ECall "Skill" []
  [("name", (EVar "name")); ("is_GCD", (EBool false)); ("combo_spec", (ETup [(ECall "ComboSpec" [] [("combo_group", (EInt 1)); ("combo_actions", (ETup
  [(EStr "Swiftskin's Coil")]))])])); ("timing_spec", (ECall "TimingSpec" [] [("base_cast_time", (EInt 0)); ("animation_lock", (EInt 650));
  ("application_delay", (EInt 0))])); ("follow_up_skills", (EDict [((EConst "SimConsts.DEFAULT_CONDITION"), (ETup [(EVar
  "twinblood_damage_follow_up"); (EMeth "__get_hunters_venom_follow_up" [] [])])); ((EStr "Swiftskin's Venom"), (ETup [(EVar
  "twinblood_damage_venom_follow_up"); (EMeth "__get_hunters_venom_follow_up" [] [])])); ((EStr "No Combo, Swiftskin's Venom"), (ETup [(EVar
  "twinblood_damage_venom_follow_up")])); ((EStr "No Combo"), (ETup [(EVar "twinblood_damage_follow_up")]))]))])].

(** simulator/game_data/class_skills/melee/vpr.py lines 929-969: twinfang_thresh *)
Definition vpr_m40 : pmethod := mkMethod "twinfang_thresh" []
  [SAsg "name" (EStr "Twinfang Thresh"); SAsg "twinfang_thresh_damage_follow_up" (ECall "FollowUp" [] [("skill", (ECall "Skill" [] [("name", (EVar
  "name")); ("damage_spec", (ECall "DamageSpec" [] [("potency", (EPot (EVar "name")))]))])); ("delay_after_parent_application", (EInt 670));
  ("primary_target_only", (EBool false))]); SAsg "twinfang_thresh_venom_follow_up" (ECall "FollowUp" [] [("skill", (ECall "Skill" [] [("name", (EVar
  "name")); ("damage_spec", (ECall "DamageSpec" [] [("potency", (EData (EVar "name") (EStr "potency_venom")))]))]));
  ("delay_after_parent_application", (EInt 670)); ("primary_target_only", (EBool false))]); SRet (ECall "Skill" [] [("name", (EVar "name"));
  ("is_GCD", (EBool false)); ("combo_spec", (ETup [(ECall "ComboSpec" [] [("combo_group", (EInt 2)); ("combo_actions", (ETup [(EStr
  "Hunter's Den")]))])])); ("timing_spec", (ECall "TimingSpec" [] [("base_cast_time", (EInt 0)); ("animation_lock", (EInt 650)); ("application_delay",
  (EInt 0))])); ("follow_up_skills", (EDict [((EConst "SimConsts.DEFAULT_CONDITION"), (ETup [(EVar "twinfang_thresh_damage_follow_up"); (EMeth
  "__get_fellskins_venom_follow_up" [] [])])); ((EStr "Fellskin's Venom"), (ETup [(EVar "twinfang_thresh_venom_follow_up"); (EMeth
  "__get_fellskins_venom_follow_up" [] [])])); ((EStr "No Combo, Fellskin's Venom"), (ETup [(EVar "twinfang_thresh_venom_follow_up")])); ((EStr
  "No Combo"), (ETup [(EVar "twinfang_thresh_damage_follow_up")]))])); ("has_aoe", (EBool true))])].

(** simulator/game_data/class_skills/melee/vpr.py lines 972-996: twinblood_thresh *)
Definition vpr_m41 : pmethod := mkMethod "twinblood_thresh" []
  [SAsg "name" (EStr "Twinblood Thresh"); SRet (ECall "Skill" [] [("name", (EVar "name")); ("is_GCD", (EBool false)); ("combo_spec", (ETup [(ECall
  "ComboSpec" [] [("combo_group", (EInt 3)); ("combo_actions", (ETup [(EStr "Swiftskin's Den")]))])])); ("damage_spec", (EDict [((EConst
  "SimConsts.DEFAULT_CONDITION"), (ECall "DamageSpec" [] [("potency", (EPot (EVar "name")))])); ((EStr "Fellhunter's Venom"), (ECall "DamageSpec" []
  [("potency", (EData (EVar "name") (EStr "potency_venom")))]))])); ("timing_spec", (ECall "TimingSpec" [] [("base_cast_time", (EInt 0));
  ("animation_lock", (EInt 650)); ("application_delay", (EInt 620))])); ("follow_up_skills", (EDict [((EConst "SimConsts.DEFAULT_CONDITION"), (ETup
  [(EMeth "__get_fellhunters_venom_follow_up" [] [])])); ((EStr "No Combo"), (ECall "tuple" [] []))])); ("has_aoe", (EBool true))])].

(** simulator/game_data/class_skills/melee/vpr.py lines 999-1032: uncoiled_fury *)
Definition vpr_m42 : pmethod := mkMethod "uncoiled_fury" []
  [SAsg "venom_name" (EStr "Poised for Twinfang"); SAsg "poised_for_twinfang_follow_up" (EMeth "__get_venom_follow_up" [(EVar "venom_name"); (ETup
  [(EStr "Uncoiled Twinfang")]); (EData (EVar "venom_name") (EStr "duration"))] []); SAsg "name" (EStr "Uncoiled Fury"); SAsg
  "uncoiled_fury_follow_up" (ECall "FollowUp" [(ECall "Skill" [] [("name", (EVar "name")); ("damage_spec", (ECall "DamageSpec" [] [("potency", (EPot
  (EVar "name")))])); ("aoe_dropoff", (EFlt 1 2))])] [("delay_after_parent_application", (EInt 800)); ("primary_target_only", (EBool false))]); SAsg
  "name" (EStr "Uncoiled Fury"); SRet (ECall "Skill" [] [("name", (EVar "name")); ("is_GCD", (EBool true)); ("timing_spec", (ECall "TimingSpec" []
  [("base_cast_time", (EInt 0)); ("animation_lock", (EInt 650)); ("application_delay", (EInt 0)); ("gcd_base_recast_time", (EInt 3500))]));
  ("follow_up_skills", (ETup [(EVar "uncoiled_fury_follow_up"); (EVar "poised_for_twinfang_follow_up")])); ("has_aoe", (EBool true))])].

(** simulator/game_data/class_skills/melee/vpr.py lines 1035-1050: reawaken *)
Definition vpr_m43 : pmethod := mkMethod "reawaken" []
  [SAsg "name" (EStr "Reawaken"); SRet (ECall "Skill" [] [("name", (EVar "name")); ("combo_spec", (ETup [(ECall "ComboSpec" [] [("combo_group", (EInt
  4))])])); ("is_GCD", (EBool true)); ("damage_spec", (ECall "DamageSpec" [] [("potency", (EPot (EVar "name")))])); ("timing_spec", (ECall
  "TimingSpec" [] [("base_cast_time", (EInt 0)); ("animation_lock", (EInt 650)); ("application_delay", (EInt 620)); ("gcd_base_recast_time", (EInt
  2200))])); ("has_aoe", (EBool true)); ("aoe_dropoff", (EFlt 3 5))])].

(** simulator/game_data/class_skills/melee/vpr.py lines 1053-1075: first_generation *)
Definition vpr_m44 : pmethod := mkMethod "first_generation" []
  [SAsg "name" (EStr "First Generation"); SRet (ECall "Skill" [] [("name", (EVar "name")); ("combo_spec", (ETup [(ECall "ComboSpec" []
  [("combo_group", (EInt 4)); ("combo_actions", (ETup [(EStr "Reawaken")]))])])); ("is_GCD", (EBool true)); ("damage_spec", (EDict [((EConst
  "SimConsts.DEFAULT_CONDITION"), (ECall "DamageSpec" [] [("potency", (EPot (EVar "name")))])); ((EStr "No Combo"), (ECall "DamageSpec" []
  [("potency", (EPotNC (EVar "name")))]))])); ("timing_spec", (ECall "TimingSpec" [] [("base_cast_time", (EInt 0)); ("animation_lock", (EInt 650));
  ("application_delay", (EInt 1700)); ("gcd_base_recast_time", (EInt 2000))])); ("has_aoe", (EBool true)); ("aoe_dropoff", (EFlt 3 5))])].

(** simulator/game_data/class_skills/melee/vpr.py lines 1078-1100: second_generation *)
Definition vpr_m45 : pmethod := mkMethod "second_generation" []
  [SAsg "name" (EStr "Second Generation"); SRet (ECall "Skill" [] [("name", (EVar "name")); ("combo_spec", (ETup [(ECall "ComboSpec" []
  [("combo_group", (EInt 4)); ("combo_actions", (ETup [(EStr "First Generation")]))])])); ("is_GCD", (EBool true)); ("damage_spec", (EDict [((EConst
  "SimConsts.DEFAULT_CONDITION"), (ECall "DamageSpec" [] [("potency", (EPot (EVar "name")))])); ((EStr "No Combo"), (ECall "DamageSpec" []
  [("potency", (EPotNC (EVar "name")))]))])); ("timing_spec", (ECall "TimingSpec" [] [("base_cast_time", (EInt 0)); ("animation_lock", (EInt 650));
  ("application_delay", (EInt 1470)); ("gcd_base_recast_time", (EInt 2000))])); ("has_aoe", (EBool true)); ("aoe_dropoff", (EFlt 3 5))])].

(** simulator/game_data/class_skills/melee/vpr.py lines 1103-1127: third_generation *)
Definition vpr_m46 : pmethod := mkMethod "third_generation" []
  [SAsg "name" (EStr "Third Generation"); SRet (ECall "Skill" [] [("name", (EVar "name")); ("combo_spec", (ETup [(ECall "ComboSpec" []
  [("combo_group", (EInt 4)); ("combo_actions", (ETup [(EStr "Second Generation")]))])])); ("is_GCD", (EBool true)); ("damage_spec", (EDict [((EConst
  "SimConsts.DEFAULT_CONDITION"), (ECall "DamageSpec" [] [("potency", (EPot (EVar "name")))])); ((EStr "No Combo"), (ECall "DamageSpec" []
  [("potency", (EPotNC (EVar "name")))]))])); ("timing_spec", (ECall "TimingSpec" [] [("base_cast_time", (EInt 0)); ("animation_lock", (EInt 650));
  ("application_delay", (EInt 1470)); ("gcd_base_recast_time", (EInt 2000))])); ("has_aoe", (EBool true)); ("aoe_dropoff", (EFlt 3 5))])].

(** simulator/game_data/class_skills/melee/vpr.py lines 1130-1152: fourth_generation *)
Definition vpr_m47 : pmethod := mkMethod "fourth_generation" []
  [SAsg "name" (EStr "Fourth Generation"); SRet (ECall "Skill" [] [("name", (EVar "name")); ("combo_spec", (ETup [(ECall "ComboSpec" []
  [("combo_group", (EInt 4)); ("combo_actions", (ETup [(EStr "Third Generation")]))])])); ("is_GCD", (EBool true)); ("damage_spec", (EDict [((EConst
  "SimConsts.DEFAULT_CONDITION"), (ECall "DamageSpec" [] [("potency", (EPot (EVar "name")))])); ((EStr "No Combo"), (ECall "DamageSpec" []
  [("potency", (EPotNC (EVar "name")))]))])); ("timing_spec", (ECall "TimingSpec" [] [("base_cast_time", (EInt 0)); ("animation_lock", (EInt 650));
  ("application_delay", (EInt 1470)); ("gcd_base_recast_time", (EInt 2000))])); ("has_aoe", (EBool true)); ("aoe_dropoff", (EFlt 3 5))])].

(** simulator/game_data/class_skills/melee/vpr.py lines 1155-1185: uncoiled_twinfang *)
Definition vpr_m48 : pmethod := mkMethod "uncoiled_twinfang" []
  [SIf (ELev OLt K92) [SRet ENone] []; SAsg "venom_name" (EStr "Poised for Twinblood"); SAsg "poised_for_twinblood_follow_up" (EMeth
  "__get_venom_follow_up" [(EVar "venom_name"); (ETup [(EStr "Uncoiled Twinblood")]); (EData (EVar "venom_name") (EStr "duration"))] []); SAsg "name"
  (EStr "Uncoiled Twinfang"); SRet (ECall "Skill" [] [("name", (EVar "name")); ("is_GCD", (EBool false)); ("damage_spec", (EDict [((EConst
  "SimConsts.DEFAULT_CONDITION"), (ECall "DamageSpec" [] [("potency", (EPot (EVar "name")))])); ((EStr "Poised for Twinfang"), (ECall "DamageSpec" []
  [("potency", (EData (EVar "name") (EStr "potency_poised")))]))])); ("timing_spec", (ECall "TimingSpec" [] [("base_cast_time", (EInt 0));
  ("animation_lock", (EInt 650)); ("application_delay", (EInt 620))])); ("follow_up_skills", (ETup [(EVar "poised_for_twinblood_follow_up")]));
  ("has_aoe", (EBool true)); ("aoe_dropoff", (EFlt 1 2))])].

(** simulator/game_data/class_skills/melee/vpr.py lines 1188-1208: uncoiled_twinblood *)
Definition vpr_m49 : pmethod := mkMethod "uncoiled_twinblood" []
  [SIf (ELev OLt K92) [SRet ENone] []; SAsg "name" (EStr "Uncoiled Twinblood"); SRet (ECall "Skill" [] [("name", (EVar "name")); ("is_GCD", (EBool
  false)); ("damage_spec", (EDict [((EConst "SimConsts.DEFAULT_CONDITION"), (ECall "DamageSpec" [] [("potency", (EPot (EVar "name")))])); ((EStr
  "Poised for Twinblood"), (ECall "DamageSpec" [] [("potency", (EData (EVar "name") (EStr "potency_poised")))]))])); ("timing_spec", (ECall
  "TimingSpec" [] [("base_cast_time", (EInt 0)); ("animation_lock", (EInt 650)); ("application_delay", (EInt 980))])); ("has_aoe", (EBool true));
  ("aoe_dropoff", (EFlt 1 2))])].

(** simulator/game_data/class_skills/melee/vpr.py lines 1211-1227: ouroboros *)
Definition vpr_m50 : pmethod := mkMethod "ouroboros" []
  [SIf (ELev OLt K96) [SRet ENone] []; SAsg "name" (EStr "Ouroboros"); SRet (ECall "Skill" [] [("name", (EVar "name")); ("is_GCD", (EBool true));
  ("damage_spec", (ECall "DamageSpec" [] [("potency", (EPot (EVar "name")))])); ("timing_spec", (ECall "TimingSpec" [] [("base_cast_time", (EInt 0));
  ("animation_lock", (EInt 650)); ("application_delay", (EInt 2330)); ("gcd_base_recast_time", (EInt 3000))])); ("has_aoe", (EBool true));
  ("aoe_dropoff", (EFlt 3 5))])].

(** simulator/game_data/class_skills/melee/vpr.py lines 1230-1243: first_legacy *)
Definition vpr_m51 : pmethod := mkMethod "first_legacy" []
  [SIf (ELev OLt K100) [SRet ENone] []; SAsg "name" (EStr "First Legacy"); SRet (ECall "Skill" [] [("name", (EVar "name")); ("is_GCD", (EBool false));
  ("damage_spec", (ECall "DamageSpec" [] [("potency", (EPot (EVar "name")))])); ("timing_spec", (ECall "TimingSpec" [] [("base_cast_time", (EInt 0));
  ("animation_lock", (EInt 650)); ("application_delay", (EInt 1290))])); ("has_aoe", (EBool true)); ("aoe_dropoff", (EFlt 3 5))])].

(** simulator/game_data/class_skills/melee/vpr.py lines 1246-1259: second_legacy *)
Definition vpr_m52 : pmethod := mkMethod "second_legacy" []
  [SIf (ELev OLt K100) [SRet ENone] []; SAsg "name" (EStr "Second Legacy"); SRet (ECall "Skill" [] [("name", (EVar "name")); ("is_GCD", (EBool
  false)); ("damage_spec", (ECall "DamageSpec" [] [("potency", (EPot (EVar "name")))])); ("timing_spec", (ECall "TimingSpec" [] [("base_cast_time",
  (EInt 0)); ("animation_lock", (EInt 650)); ("application_delay", (EInt 1070))])); ("has_aoe", (EBool true)); ("aoe_dropoff", (EFlt 3 5))])].

(** simulator/game_data/class_skills/melee/vpr.py lines 1262-1275: third_legacy *)
Definition vpr_m53 : pmethod := mkMethod "third_legacy" []
  [SIf (ELev OLt K100) [SRet ENone] []; SAsg "name" (EStr "Third Legacy"); SRet (ECall "Skill" [] [("name", (EVar "name")); ("is_GCD", (EBool false));
  ("damage_spec", (ECall "DamageSpec" [] [("potency", (EPot (EVar "name")))])); ("timing_spec", (ECall "TimingSpec" [] [("base_cast_time", (EInt 0));
  ("animation_lock", (EInt 650)); ("application_delay", (EInt 1210))])); ("has_aoe", (EBool true)); ("aoe_dropoff", (EFlt 3 5))])].

(** simulator/game_data/class_skills/melee/vpr.py lines 1278-1291: fourth_legacy *)
Definition vpr_m54 : pmethod := mkMethod "fourth_legacy" []
  [SIf (ELev OLt K100) [SRet ENone] []; SAsg "name" (EStr "Fourth Legacy"); SRet (ECall "Skill" [] [("name", (EVar "name")); ("is_GCD", (EBool
  false)); ("damage_spec", (ECall "DamageSpec" [] [("potency", (EPot (EVar "name")))])); ("timing_spec", (ECall "TimingSpec" [] [("base_cast_time",
  (EInt 0)); ("animation_lock", (EInt 650)); ("application_delay", (EInt 1070))])); ("has_aoe", (EBool true)); ("aoe_dropoff", (EFlt 3 5))])].

(** simulator/game_data/class_skills/melee/vpr.py lines 1298-1300: true_north *)
Definition vpr_m55 : pmethod := mkMethod "true_north" []
  [SAsg "name" (EStr "True North"); SRet (ECall "Skill" [] [("name", (EVar "name")); ("is_GCD", (EBool false)); ("timing_spec", (ESelf
  "instant_timing_spec"))])].

(** simulator/game_data/class_skills/melee/vpr.py lines 1303-1305: feint *)
Definition vpr_m56 : pmethod := mkMethod "feint" []
  [SAsg "name" (EStr "Feint"); SRet (ECall "Skill" [] [("name", (EVar "name")); ("is_GCD", (EBool false)); ("timing_spec", (ESelf
  "instant_timing_spec"))])].

(** simulator/game_data/class_skills/melee/vpr.py lines 1308-1310: bloodbath *)
Definition vpr_m57 : pmethod := mkMethod "bloodbath" []
  [SAsg "name" (EStr "Bloodbath"); SRet (ECall "Skill" [] [("name", (EVar "name")); ("is_GCD", (EBool false)); ("timing_spec", (ESelf
  "instant_timing_spec"))])].

(** simulator/game_data/class_skills/melee/vpr.py lines 1313-1315: slither *)
Definition vpr_m58 : pmethod := mkMethod "slither" []
  [SAsg "name" (EStr "Slither"); SRet (ECall "Skill" [] [("name", (EVar "name")); ("is_GCD", (EBool false)); ("timing_spec", (ESelf
  "instant_timing_spec"))])].

(** simulator/game_data/class_skills/melee/vpr.py lines 1318-1320: serpents_tail *)
Definition vpr_m59 : pmethod := mkMethod "serpents_tail" []
  [SAsg "name" (EStr "Serpent's Tail"); SRet (ECall "Skill" [] [("name", (EVar "name")); ("is_GCD", (EBool false)); ("timing_spec", (ESelf
  "instant_timing_spec"))])].

(** simulator/game_data/class_skills/melee/vpr.py lines 1323-1325: twinfang *)
Definition vpr_m60 : pmethod := mkMethod "twinfang" []
  [SAsg "name" (EStr "Twinfang"); SRet (ECall "Skill" [] [("name", (EVar "name")); ("is_GCD", (EBool false)); ("timing_spec", (ESelf
  "instant_timing_spec"))])].

(** simulator/game_data/class_skills/melee/vpr.py lines 1328-1330: twinblood *)
Definition vpr_m61 : pmethod := mkMethod "twinblood" []
  [SAsg "name" (EStr "Twinblood"); SRet (ECall "Skill" [] [("name", (EVar "name")); ("is_GCD", (EBool false)); ("timing_spec", (ESelf
  "instant_timing_spec"))])].

(** simulator/game_data/class_skills/melee/vpr.py lines 1333-1335: serpents_ire *)
Definition vpr_m62 : pmethod := mkMethod "serpents_ire" []
  [SAsg "name" (EStr "Serpent's Ire"); SRet (ECall "Skill" [] [("name", (EVar "name")); ("is_GCD", (EBool false)); ("timing_spec", (ESelf
  "instant_timing_spec"))])].

(** simulator/game_data/class_skills/melee/vpr.py lines 18-29: __init__ after super().__init__ *)
Definition vpr_init : list stmt :=
  [SAttr "_job_class" (EStr "VPR"); SAttr "__combo_base_potency_no_venom" (EData (EStr "Combo Base") (EStr "potency_no_venom")); SAttr
  "__combo_base_potency_with_venom" (EData (EStr "Combo Base") (EStr "potency_venom"))].

(** simulator/game_data/class_skills/melee/vpr.py lines 16-1335: class VprSkills; the decorated methods in the order of [dir] *)
Definition vpr_class : pclass := mkClass [] vpr_init
  [vpr_m0; vpr_m1; vpr_m2; vpr_m3; vpr_m4; vpr_m5; vpr_m6; vpr_m7; vpr_m8; vpr_m9; vpr_m10; vpr_m11; vpr_m12; vpr_m13; vpr_m14; vpr_m15; vpr_m16;
  vpr_m17; vpr_m18; vpr_m19; vpr_m20; vpr_m21; vpr_m22; vpr_m23; vpr_m24; vpr_m25; vpr_m26; vpr_m27; vpr_m28; vpr_m29; vpr_m30; vpr_m31; vpr_m32;
  vpr_m33; vpr_m34; vpr_m35; vpr_m36; vpr_m37; vpr_m38; vpr_m39; vpr_m40; vpr_m41; vpr_m42; vpr_m43; vpr_m44; vpr_m45; vpr_m46; vpr_m47; vpr_m48;
  vpr_m49; vpr_m50; vpr_m51; vpr_m52; vpr_m53; vpr_m54; vpr_m55; vpr_m56; vpr_m57; vpr_m58; vpr_m59; vpr_m60; vpr_m61; vpr_m62]
  ["auto"; "bloodbath"; "bloodied_maw"; "death_rattle"; "dread_fangs"; "dread_maw"; "dreadwinder"; "feint"; "first_generation"; "first_legacy";
  "flanksbane_fang"; "flanksting_strike"; "fourth_generation"; "fourth_legacy"; "hindsbane_fang"; "hindsting_strike"; "hunters_bite"; "hunters_coil";
  "hunters_den"; "hunters_sting"; "jagged_maw"; "last_lash"; "ouroboros"; "pit_of_dread"; "reaving_fangs"; "reaving_maw"; "reawaken";
  "second_generation"; "second_legacy"; "serpents_ire"; "serpents_tail"; "slither"; "steel_fangs"; "steel_maw"; "swiftskins_bite"; "swiftskins_coil";
  "swiftskins_den"; "swiftskins_sting"; "third_generation"; "third_legacy"; "true_north"; "twinblood"; "twinblood_bite"; "twinblood_thresh";
  "twinfang"; "twinfang_bite"; "twinfang_thresh"; "uncoiled_fury"; "uncoiled_twinblood"; "uncoiled_twinfang"; "vicepit"; "vicewinder";
  "writhing_snap"]
  []
  vpr_data.
