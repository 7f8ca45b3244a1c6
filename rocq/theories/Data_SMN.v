(** * SMN: the shipped skill definitions.

    Generated by tools/gen_game_data.py from
    simulator/game_data/class_skills/caster/smn.py and simulator/game_data/class_skills/caster/smn_data.py. *)

From Coq Require Import ZArith List String.
From Verif Require Import Py.
Import ListNotations.
Open Scope string_scope.
Open Scope Z_scope.

(** simulator/game_data/class_skills/caster/smn_data.py lines 8-87, in dict-literal order *)
Definition smn_data : data_table := [
  ("Fester", [(90, [("potency", [(V655, (EInt 340))])])]);
  ("Energy Drain", [(90, [("potency", [(V655, (EInt 200))])]); (100, [("potency", [(V70, (EInt 200))])])]);
  ("Painflare", [(90, [("potency", [(V655, (EInt 150))])]); (100, [("potency", [(V70, (EInt 150))])])]);
  ("Energy Siphon", [(90, [("potency", [(V655, (EInt 100))])]); (100, [("potency", [(V70, (EInt 100))])])]);
  ("Ruin III", [(90, [("potency", [(V655, (EInt 310))]); ("potency_aethercharge", [(V655, (EInt 360))])]); (100, [("potency", [(V70, (EInt 360))]);
  ("potency_aethercharge", [(V70, (EInt 410))])])]);
  ("Astral Impulse", [(90, [("potency", [(V655, (EInt 440))])]); (100, [("potency", [(V70, (EInt 500))])])]);
  ("Astral Flare", [(90, [("potency", [(V655, (EInt 180))])]); (100, [("potency", [(V70, (EInt 180))])])]);
  ("Deathflare", [(90, [("potency", [(V655, (EInt 500))])]); (100, [("potency", [(V70, (EInt 500))])])]);
  ("Ruin IV", [(90, [("potency", [(V655, (EInt 430))])]); (100, [("potency", [(V70, (EInt 490))])])]);
  ("Searing Light", [(90, [("damage_mult", [(V655, (EFlt 103 100)); (V70, (EFlt 21 20))]); ("duration", [(V655, (EBin BMul (EInt 30) (EInt 1000)));
  (V70, (EBin BMul (EInt 20) (EInt 1000)))])]); (100, [("damage_mult", [(V655, (EFlt 21 20))]); ("duration", [(V655, (EBin BMul (EInt 20) (EInt
  1000)))])])]);
  ("Akh Morn (pet)", [(90, [("potency", [(V655, (EInt 1300))])]); (100, [("potency", [(V70, (EInt 1300))])])]);
  ("Ruby Rite", [(90, [("potency", [(V655, (EInt 510))])]); (100, [("potency", [(V70, (EInt 540))])])]);
  ("Topaz Rite", [(90, [("potency", [(V655, (EInt 330))])]); (100, [("potency", [(V70, (EInt 340))])])]);
  ("Emerald Rite", [(90, [("potency", [(V655, (EInt 230))])]); (100, [("potency", [(V70, (EInt 240))])])]);
  ("Tri-disaster", [(90, [("potency", [(V655, (EInt 120))])]); (100, [("potency", [(V70, (EInt 120))])])]);
  ("Fountain of Fire", [(90, [("potency", [(V655, (EInt 540))])]); (100, [("potency", [(V70, (EInt 580))])])]);
  ("Brand of Purgatory", [(90, [("potency", [(V655, (EInt 240))])]); (100, [("potency", [(V70, (EInt 240))])])]);
  ("Revelation (pet)", [(90, [("potency", [(V655, (EInt 1300))])]); (100, [("potency", [(V70, (EInt 1300))])])]);
  ("Ruby Catastrophe", [(90, [("potency", [(V655, (EInt 210))])]); (100, [("potency", [(V70, (EInt 210))])])]);
  ("Topaz Catastrophe", [(90, [("potency", [(V655, (EInt 140))])]); (100, [("potency", [(V70, (EInt 140))])])]);
  ("Emerald Catastrophe", [(90, [("potency", [(V655, (EInt 100))])]); (100, [("potency", [(V70, (EInt 100))])])]);
  ("Crimson Cyclone", [(90, [("potency", [(V655, (EInt 430))])]); (100, [("potency", [(V70, (EInt 490))])])]);
  ("Crimson Strike", [(90, [("potency", [(V655, (EInt 430))])]); (100, [("potency", [(V70, (EInt 490))])])]);
  ("Mountain Buster", [(90, [("potency", [(V655, (EInt 150))])]); (100, [("potency", [(V70, (EInt 160))])])]);
  ("Slipstream (dot)", [(90, [("potency", [(V655, (EInt 30))])]); (100, [("potency", [(V70, (EInt 30))])])]);
  ("Slipstream", [(90, [("potency", [(V655, (EInt 430))])]); (100, [("potency", [(V70, (EInt 490))])])]);
  ("Inferno (pet)", [(90, [("potency", [(V655, (EInt 750))])]); (100, [("potency", [(V70, (EInt 750)); (V71, (EInt 800))])])]);
  ("Earthen Fury (pet)", [(90, [("potency", [(V655, (EInt 750))])]); (100, [("potency", [(V70, (EInt 750)); (V71, (EInt 800))])])]);
  ("Aerial Blast (pet)", [(90, [("potency", [(V655, (EInt 750))])]); (100, [("potency", [(V70, (EInt 750)); (V71, (EInt 800))])])]);
  ("Scarlet Flame (pet)", [(90, [("potency", [(V655, (EInt 150))])]); (100, [("potency", [(V70, (EInt 150))])])]);
  ("Necrotize", [(100, [("potency", [(V70, (EInt 420)); (V705, (EInt 440))])])]);
  ("Searing Flash", [(100, [("potency", [(V70, (EInt 600))])])]);
  ("Wyrmwave (pet)", [(90, [("potency", [(V655, (EInt 150))])]); (100, [("potency", [(V70, (EInt 150))])])]);
  ("Luxwave", [(100, [("potency", [(V70, (EInt 160))])])]);
  ("Umbral Impulse", [(100, [("potency", [(V70, (EInt 600)); (V705, (EInt 620))])])]);
  ("Umbral Flare", [(100, [("potency", [(V70, (EInt 280))])])]);
  ("Sunflare", [(100, [("potency", [(V70, (EInt 600)); (V705, (EInt 700)); (V71, (EInt 800))])])]);
  ("Exodus (pet)", [(100, [("potency", [(V70, (EInt 1400))])])])].

(** simulator/game_data/class_skills/caster/smn.py lines 29-38: auto *)
Definition smn_m0 : pmethod := mkMethod "auto" []
  [SAsg "name" (EStr "Auto"); SRet (ECall "Skill" [] [("name", (EVar "name")); ("is_GCD", (EBool false)); ("timing_spec", (ESelf "auto_timing_spec"));
  ("damage_spec", (ECall "DamageSpec" [] [("potency", (EInt 90)); ("damage_class", (EConst "DamageClass.AUTO")); ("trait_damage_mult_override", (EInt
  1))]))])].

(** simulator/game_data/class_skills/caster/smn.py lines 41-54: fester *)
Definition smn_m1 : pmethod := mkMethod "fester" []
  [SIf (ELev OGe K92) [SRet ENone] []; SAsg "name" (EStr "Fester"); SRet (ECall "Skill" [] [("name", (EVar "name")); ("is_GCD", (EBool false));
  ("damage_spec", (ECall "DamageSpec" [] [("potency", (EPot (EVar "name")))])); ("timing_spec", (ECall "TimingSpec" [] [("base_cast_time", (EInt 0));
  ("animation_lock", (ESelf "__base_animation_lock")); ("application_delay", (EInt 930))]))])].

(** simulator/game_data/class_skills/caster/smn.py lines 57-68: energy_drain *)
Definition smn_m2 : pmethod := mkMethod "energy_drain" []
  [SAsg "name" (EStr "Energy Drain"); SRet (ECall "Skill" [] [("name", (EVar "name")); ("is_GCD", (EBool false)); ("damage_spec", (ECall "DamageSpec"
  [] [("potency", (EPot (EVar "name")))])); ("timing_spec", (ECall "TimingSpec" [] [("base_cast_time", (EInt 0)); ("animation_lock", (EBin BAdd (ESelf
  "__base_animation_lock") (ESelf "__smn_caster_tax_ms"))); ("application_delay", (EInt 1070))]))])].

(** simulator/game_data/class_skills/caster/smn.py lines 71-83: painflare *)
Definition smn_m3 : pmethod := mkMethod "painflare" []
  [SAsg "name" (EStr "Painflare"); SRet (ECall "Skill" [] [("name", (EVar "name")); ("is_GCD", (EBool false)); ("damage_spec", (ECall "DamageSpec" []
  [("potency", (EPot (EVar "name")))])); ("timing_spec", (ECall "TimingSpec" [] [("base_cast_time", (EInt 0)); ("animation_lock", (EBin BAdd (ESelf
  "__base_animation_lock") (ESelf "__smn_caster_tax_ms"))); ("application_delay", (EInt 440))])); ("has_aoe", (EBool true))])].

(** simulator/game_data/class_skills/caster/smn.py lines 86-98: energy_siphon *)
Definition smn_m4 : pmethod := mkMethod "energy_siphon" []
  [SAsg "name" (EStr "Energy Siphon"); SRet (ECall "Skill" [] [("name", (EVar "name")); ("is_GCD", (EBool false)); ("damage_spec", (ECall "DamageSpec"
  [] [("potency", (EPot (EVar "name")))])); ("timing_spec", (ECall "TimingSpec" [] [("base_cast_time", (EInt 0)); ("animation_lock", (ESelf
  "__base_animation_lock")); ("application_delay", (EInt 1020))])); ("has_aoe", (EBool true))])].

(** simulator/game_data/class_skills/caster/smn.py lines 101-121: ruin_iii *)
Definition smn_m5 : pmethod := mkMethod "ruin_iii" []
  [SAsg "name" (EStr "Ruin III"); SRet (ECall "Skill" [] [("name", (EVar "name")); ("is_GCD", (EBool true)); ("damage_spec", (EDict [((EConst
  "SimConsts.DEFAULT_CONDITION"), (ECall "DamageSpec" [] [("potency", (EPot (EVar "name")))])); ((EStr "Aethercharge"), (ECall "DamageSpec" []
  [("potency", (EData (EVar "name") (EStr "potency_aethercharge")))]))])); ("timing_spec", (ECall "TimingSpec" [] [("base_cast_time", (EInt 1500));
  ("animation_lock", (ESelf "__smn_caster_tax_ms")); ("application_delay", (EInt 800))]))])].

(** simulator/game_data/class_skills/caster/smn.py lines 124-135: astral_impulse *)
Definition smn_m6 : pmethod := mkMethod "astral_impulse" []
  [SAsg "name" (EStr "Astral Impulse"); SRet (ECall "Skill" [] [("name", (EVar "name")); ("is_GCD", (EBool true)); ("damage_spec", (ECall "DamageSpec"
  [] [("potency", (EPot (EVar "name")))])); ("timing_spec", (ECall "TimingSpec" [] [("base_cast_time", (EInt 0)); ("animation_lock", (ESelf
  "__base_animation_lock")); ("application_delay", (EInt 670))]))])].

(** simulator/game_data/class_skills/caster/smn.py lines 138-150: astral_flare *)
Definition smn_m7 : pmethod := mkMethod "astral_flare" []
  [SAsg "name" (EStr "Astral Flare"); SRet (ECall "Skill" [] [("name", (EVar "name")); ("is_GCD", (EBool true)); ("damage_spec", (ECall "DamageSpec"
  [] [("potency", (EPot (EVar "name")))])); ("timing_spec", (ECall "TimingSpec" [] [("base_cast_time", (EInt 0)); ("animation_lock", (ESelf
  "__base_animation_lock")); ("application_delay", (EInt 540))])); ("has_aoe", (EBool true))])].

(** simulator/game_data/class_skills/caster/smn.py lines 153-170: deathflare *)
Definition smn_m8 : pmethod := mkMethod "deathflare" []
  [SAsg "name" (EStr "Deathflare"); SRet (ECall "Skill" [] [("name", (EVar "name")); ("is_GCD", (EBool false)); ("damage_spec", (EDict [((EConst
  "SimConsts.DEFAULT_CONDITION"), (ECall "DamageSpec" [] [("potency", (EPot (EVar "name")))]))])); ("timing_spec", (ECall "TimingSpec" []
  [("base_cast_time", (EInt 0)); ("animation_lock", (ESelf "__base_animation_lock")); ("application_delay", (EInt 800))])); ("has_aoe", (EBool true));
  ("aoe_dropoff", (EFlt 3 5))])].

(** simulator/game_data/class_skills/caster/smn.py lines 173-190: ruin_iv *)
Definition smn_m9 : pmethod := mkMethod "ruin_iv" []
  [SAsg "name" (EStr "Ruin IV"); SRet (ECall "Skill" [] [("name", (EVar "name")); ("is_GCD", (EBool true)); ("damage_spec", (EDict [((EConst
  "SimConsts.DEFAULT_CONDITION"), (ECall "DamageSpec" [] [("potency", (EPot (EVar "name")))]))])); ("timing_spec", (ECall "TimingSpec" []
  [("base_cast_time", (EInt 0)); ("animation_lock", (ESelf "__base_animation_lock")); ("application_delay", (EInt 800))])); ("has_aoe", (EBool true));
  ("aoe_dropoff", (EFlt 3 5))])].

(** simulator/game_data/class_skills/caster/smn.py lines 193-204: searing_light *)
Definition smn_m10 : pmethod := mkMethod "searing_light" []
  [SAsg "name" (EStr "Searing Light"); SRet (ECall "Skill" [] [("name", (EVar "name")); ("is_GCD", (EBool false)); ("buff_spec", (ECall
  "StatusEffectSpec" [] [("damage_mult", (EData (EVar "name") (EStr "damage_mult"))); ("duration", (EData (EVar "name") (EStr "duration")));
  ("is_party_effect", (EBool true))])); ("timing_spec", (ESelf "__smn_instant_timing_spec"))])].

(** simulator/game_data/class_skills/caster/smn.py lines 206-227: __get_akh_morn_for_follow_up *)
Definition smn_m11 : pmethod := mkMethod "__get_akh_morn_for_follow_up" []
  [SAsg "name" (EStr "Akh Morn (pet)"); SRet (ECall "FollowUp" [] [("skill", (ECall "Skill" [] [("name", (EVar "name")); ("is_GCD", (EBool false));
  ("damage_spec", (EDict [((EConst "SimConsts.DEFAULT_CONDITION"), (ECall "DamageSpec" [] [("potency", (EPot (EVar "name"))); ("damage_class", (EConst
  "DamageClass.PET")); ("pet_job_mod_override", (EInt 100)); ("pet_scalar", (EFlt 22 25))]))])); ("has_aoe", (EBool true)); ("aoe_dropoff", (EFlt 3
  5))])); ("delay_after_parent_application", (EInt 0)); ("snapshot_buffs_with_parent", (EBool false)); ("snapshot_debuffs_with_parent", (EBool
  false)); ("primary_target_only", (EBool false))])].

(** simulator/game_data/class_skills/caster/smn.py lines 230-237: enkindle_bahamut *)
Definition smn_m12 : pmethod := mkMethod "enkindle_bahamut" []
  [SAsg "name" (EStr "Enkindle Bahamut"); SRet (ECall "Skill" [] [("name", (EVar "name")); ("is_GCD", (EBool false)); ("timing_spec", (ESelf
  "__smn_instant_timing_spec")); ("follow_up_skills", (ETup [(EMeth "__get_akh_morn_for_follow_up" [] [])]))])].

(** simulator/game_data/class_skills/caster/smn.py lines 240-247: akh_morn *)
Definition smn_m13 : pmethod := mkMethod "akh_morn" []
  [SAsg "name" (EStr "Akh Morn"); SRet (ECall "Skill" [] [("name", (EVar "name")); ("is_GCD", (EBool false)); ("timing_spec", (ESelf
  "__smn_instant_timing_spec")); ("follow_up_skills", (ETup [(EMeth "__get_akh_morn_for_follow_up" [] [])]))])].

(** simulator/game_data/class_skills/caster/smn.py lines 250-262: ruby_rite *)
Definition smn_m14 : pmethod := mkMethod "ruby_rite" []
  [SAsg "name" (EStr "Ruby Rite"); SRet (ECall "Skill" [] [("name", (EVar "name")); ("is_GCD", (EBool true)); ("damage_spec", (ECall "DamageSpec" []
  [("potency", (EPot (EVar "name")))])); ("timing_spec", (ECall "TimingSpec" [] [("base_cast_time", (EInt 2800)); ("gcd_base_recast_time", (EInt
  3000)); ("animation_lock", (ESelf "__smn_caster_tax_ms")); ("application_delay", (EInt 620))]))])].

(** simulator/game_data/class_skills/caster/smn.py lines 265-277: topaz_rite *)
Definition smn_m15 : pmethod := mkMethod "topaz_rite" []
  [SAsg "name" (EStr "Topaz Rite"); SRet (ECall "Skill" [] [("name", (EVar "name")); ("is_GCD", (EBool true)); ("damage_spec", (ECall "DamageSpec" []
  [("potency", (EPot (EVar "name")))])); ("timing_spec", (ECall "TimingSpec" [] [("base_cast_time", (EInt 0)); ("gcd_base_recast_time", (EInt 2500));
  ("animation_lock", (ESelf "__base_animation_lock")); ("application_delay", (EInt 620))]))])].

(** simulator/game_data/class_skills/caster/smn.py lines 280-295: emerald_rite *)
Definition smn_m16 : pmethod := mkMethod "emerald_rite" []
  [SAsg "name" (EStr "Emerald Rite"); SRet (ECall "Skill" [] [("name", (EVar "name")); ("is_GCD", (EBool true)); ("damage_spec", (ECall "DamageSpec"
  [] [("potency", (EPot (EVar "name")))])); ("timing_spec", (ECall "TimingSpec" [] [("base_cast_time", (EInt 0)); ("gcd_base_recast_time", (EInt
  1500)); ("animation_lock", (ESelf "__base_animation_lock")); ("application_delay", (EInt 620)); ("affected_by_speed_stat", (EBool false));
  ("affected_by_haste_buffs", (EBool false))]))])].

(** simulator/game_data/class_skills/caster/smn.py lines 298-309: tri_disaster *)
Definition smn_m17 : pmethod := mkMethod "tri_disaster" []
  [SAsg "name" (EStr "Tri-disaster"); SRet (ECall "Skill" [] [("name", (EVar "name")); ("is_GCD", (EBool true)); ("damage_spec", (ECall "DamageSpec"
  [] [("potency", (EPot (EVar "name")))])); ("timing_spec", (ECall "TimingSpec" [] [("base_cast_time", (EInt 1500)); ("animation_lock", (ESelf
  "__base_animation_lock"))])); ("has_aoe", (EBool true))])].

(** simulator/game_data/class_skills/caster/smn.py lines 312-323: fountain_of_fire *)
Definition smn_m18 : pmethod := mkMethod "fountain_of_fire" []
  [SAsg "name" (EStr "Fountain of Fire"); SRet (ECall "Skill" [] [("name", (EVar "name")); ("is_GCD", (EBool true)); ("damage_spec", (ECall
  "DamageSpec" [] [("potency", (EPot (EVar "name")))])); ("timing_spec", (ECall "TimingSpec" [] [("base_cast_time", (EInt 0)); ("animation_lock",
  (ESelf "__base_animation_lock")); ("application_delay", (EInt 1070))]))])].

(** simulator/game_data/class_skills/caster/smn.py lines 326-338: brand_of_purgatory *)
Definition smn_m19 : pmethod := mkMethod "brand_of_purgatory" []
  [SAsg "name" (EStr "Brand of Purgatory"); SRet (ECall "Skill" [] [("name", (EVar "name")); ("is_GCD", (EBool true)); ("damage_spec", (ECall
  "DamageSpec" [] [("potency", (EPot (EVar "name")))])); ("timing_spec", (ECall "TimingSpec" [] [("base_cast_time", (EInt 0)); ("animation_lock",
  (ESelf "__base_animation_lock")); ("application_delay", (EInt 800))])); ("has_aoe", (EBool true))])].

(** simulator/game_data/class_skills/caster/smn.py lines 340-363: __get_revelation_follow_up *)
Definition smn_m20 : pmethod := mkMethod "__get_revelation_follow_up" []
  [SAsg "name" (EStr "Revelation (pet)"); SRet (ECall "FollowUp" [(ECall "Skill" [] [("name", (EVar "name")); ("is_GCD", (EBool false));
  ("status_effect_denylist", (ETup [(EStr "Dragon Sight")])); ("damage_spec", (EDict [((EConst "SimConsts.DEFAULT_CONDITION"), (ECall "DamageSpec" []
  [("potency", (EPot (EVar "name"))); ("damage_class", (EConst "DamageClass.PET")); ("pet_job_mod_override", (EInt 100)); ("pet_scalar", (EFlt 22
  25))]))])); ("timing_spec", (ESelf "__smn_instant_timing_spec")); ("has_aoe", (EBool true)); ("aoe_dropoff", (EFlt 3 5))])]
  [("delay_after_parent_application", (EInt 0)); ("snapshot_buffs_with_parent", (EInt 0)); ("snapshot_debuffs_with_parent", (EInt 0));
  ("primary_target_only", (EBool false))])].

(** simulator/game_data/class_skills/caster/smn.py lines 366-373: enkindle_phoenix *)
Definition smn_m21 : pmethod := mkMethod "enkindle_phoenix" []
  [SAsg "name" (EStr "Enkindle Phoenix"); SRet (ECall "Skill" [] [("name", (EVar "name")); ("is_GCD", (EBool false)); ("timing_spec", (ESelf
  "__smn_instant_timing_spec")); ("follow_up_skills", (ETup [(EMeth "__get_revelation_follow_up" [] [])]))])].

(** simulator/game_data/class_skills/caster/smn.py lines 376-383: revelation *)
Definition smn_m22 : pmethod := mkMethod "revelation" []
  [SAsg "name" (EStr "Revelation"); SRet (ECall "Skill" [] [("name", (EVar "name")); ("is_GCD", (EBool false)); ("timing_spec", (ESelf
  "__smn_instant_timing_spec")); ("follow_up_skills", (ETup [(EMeth "__get_revelation_follow_up" [] [])]))])].

(** simulator/game_data/class_skills/caster/smn.py lines 386-399: ruby_catastrophe *)
Definition smn_m23 : pmethod := mkMethod "ruby_catastrophe" []
  [SAsg "name" (EStr "Ruby Catastrophe"); SRet (ECall "Skill" [] [("name", (EVar "name")); ("is_GCD", (EBool true)); ("damage_spec", (ECall
  "DamageSpec" [] [("potency", (EPot (EVar "name")))])); ("timing_spec", (ECall "TimingSpec" [] [("base_cast_time", (EInt 2800));
  ("gcd_base_recast_time", (EInt 3000)); ("animation_lock", (ESelf "__smn_caster_tax_ms")); ("application_delay", (EInt 535))])); ("has_aoe", (EBool
  true))])].

(** simulator/game_data/class_skills/caster/smn.py lines 402-415: topaz_catastrophe *)
Definition smn_m24 : pmethod := mkMethod "topaz_catastrophe" []
  [SAsg "name" (EStr "Topaz Catastrophe"); SRet (ECall "Skill" [] [("name", (EVar "name")); ("is_GCD", (EBool true)); ("damage_spec", (ECall
  "DamageSpec" [] [("potency", (EPot (EVar "name")))])); ("timing_spec", (ECall "TimingSpec" [] [("base_cast_time", (EInt 0));
  ("gcd_base_recast_time", (EInt 2500)); ("animation_lock", (ESelf "__base_animation_lock")); ("application_delay", (EInt 535))])); ("has_aoe", (EBool
  true))])].

(** simulator/game_data/class_skills/caster/smn.py lines 418-434: emerald_catastrophe *)
Definition smn_m25 : pmethod := mkMethod "emerald_catastrophe" []
  [SAsg "name" (EStr "Emerald Catastrophe"); SRet (ECall "Skill" [] [("name", (EVar "name")); ("is_GCD", (EBool true)); ("damage_spec", (ECall
  "DamageSpec" [] [("potency", (EPot (EVar "name")))])); ("timing_spec", (ECall "TimingSpec" [] [("base_cast_time", (EInt 0));
  ("gcd_base_recast_time", (EInt 1500)); ("animation_lock", (ESelf "__base_animation_lock")); ("application_delay", (EInt 535));
  ("affected_by_speed_stat", (EBool false)); ("affected_by_haste_buffs", (EBool false))])); ("has_aoe", (EBool true))])].

(** simulator/game_data/class_skills/caster/smn.py lines 437-454: crimson_cyclone *)
Definition smn_m26 : pmethod := mkMethod "crimson_cyclone" []
  [SAsg "name" (EStr "Crimson Cyclone"); SRet (ECall "Skill" [] [("name", (EVar "name")); ("is_GCD", (EBool true)); ("damage_spec", (EDict [((EConst
  "SimConsts.DEFAULT_CONDITION"), (ECall "DamageSpec" [] [("potency", (EPot (EVar "name")))]))])); ("timing_spec", (ECall "TimingSpec" []
  [("base_cast_time", (EInt 0)); ("animation_lock", (ESelf "__base_animation_lock")); ("application_delay", (EInt 800))])); ("has_aoe", (EBool true));
  ("aoe_dropoff", (EFlt 13 20))])].

(** simulator/game_data/class_skills/caster/smn.py lines 457-474: crimson_strike *)
Definition smn_m27 : pmethod := mkMethod "crimson_strike" []
  [SAsg "name" (EStr "Crimson Strike"); SRet (ECall "Skill" [] [("name", (EVar "name")); ("is_GCD", (EBool true)); ("damage_spec", (EDict [((EConst
  "SimConsts.DEFAULT_CONDITION"), (ECall "DamageSpec" [] [("potency", (EPot (EVar "name")))]))])); ("timing_spec", (ECall "TimingSpec" []
  [("base_cast_time", (EInt 0)); ("animation_lock", (ESelf "__base_animation_lock")); ("application_delay", (EInt 760))])); ("has_aoe", (EBool true));
  ("aoe_dropoff", (EFlt 13 20))])].

(** simulator/game_data/class_skills/caster/smn.py lines 477-494: mountain_buster *)
Definition smn_m28 : pmethod := mkMethod "mountain_buster" []
  [SAsg "name" (EStr "Mountain Buster"); SRet (ECall "Skill" [] [("name", (EVar "name")); ("is_GCD", (EBool false)); ("damage_spec", (EDict [((EConst
  "SimConsts.DEFAULT_CONDITION"), (ECall "DamageSpec" [] [("potency", (EPot (EVar "name")))]))])); ("timing_spec", (ECall "TimingSpec" []
  [("base_cast_time", (EInt 0)); ("animation_lock", (ESelf "__base_animation_lock")); ("application_delay", (EInt 760))])); ("has_aoe", (EBool true));
  ("aoe_dropoff", (EFlt 7 10))])].

(** simulator/game_data/class_skills/caster/smn.py lines 497-534: slipstream *)
Definition smn_m29 : pmethod := mkMethod "slipstream" []
  [SAsg "name" (EStr "Slipstream (dot)"); SAsg "slipstream_follow_up" (ECall "FollowUp" [] [("skill", (ECall "Skill" [] [("name", (EVar "name"));
  ("is_GCD", (EBool false)); ("damage_spec", (ECall "DamageSpec" [] [("potency", (EPot (EVar "name"))); ("damage_class", (EConst
  "DamageClass.MAGICAL_DOT"))])); ("has_aoe", (EBool true))])); ("delay_after_parent_application", (EInt 0)); ("dot_duration", (EBin BMul (EInt 15)
  (EInt 1000))); ("snapshot_buffs_with_parent", (EBool true)); ("snapshot_debuffs_with_parent", (EBool false)); ("primary_target_only", (EBool
  false))]); SAsg "name" (EStr "Slipstream"); SRet (ECall "Skill" [] [("name", (EVar "name")); ("is_GCD", (EBool true)); ("damage_spec", (EDict
  [((EConst "SimConsts.DEFAULT_CONDITION"), (ECall "DamageSpec" [] [("potency", (EPot (EVar "name")))]))])); ("timing_spec", (ECall "TimingSpec" []
  [("base_cast_time", (EInt 3000)); ("gcd_base_recast_time", (EInt 3500)); ("animation_lock", (ESelf "__smn_caster_tax_ms")); ("application_delay",
  (EInt 1020))])); ("follow_up_skills", (ETup [(EVar "slipstream_follow_up")])); ("has_aoe", (EBool true)); ("aoe_dropoff", (EFlt 13 20))])].

(** simulator/game_data/class_skills/caster/smn.py lines 537-568: summon_ifrit_ii *)
Definition smn_m30 : pmethod := mkMethod "summon_ifrit_ii" []
  [SAsg "name" (EStr "Inferno (pet)"); SAsg "inferno_follow_up" (ECall "FollowUp" [] [("skill", (ECall "Skill" [] [("name", (EVar "name")); ("is_GCD",
  (EBool true)); ("status_effect_denylist", (ETup [(EStr "Dragon Sight")])); ("damage_spec", (EDict [((EConst "SimConsts.DEFAULT_CONDITION"), (ECall
  "DamageSpec" [] [("potency", (EPot (EVar "name"))); ("damage_class", (EConst "DamageClass.PET")); ("pet_job_mod_override", (EInt 100));
  ("pet_scalar", (EFlt 22 25))]))])); ("has_aoe", (EBool true)); ("aoe_dropoff", (EFlt 3 5))])); ("snapshot_buffs_with_parent", (EBool false));
  ("snapshot_debuffs_with_parent", (EBool false)); ("delay_after_parent_application", (EInt 2100)); ("primary_target_only", (EBool false))]); SAsg
  "name" (EStr "Summon Ifrit II"); SRet (ECall "Skill" [] [("name", (EVar "name")); ("is_GCD", (EBool true)); ("timing_spec", (ESelf
  "__smn_instant_timing_spec")); ("follow_up_skills", (ETup [(EVar "inferno_follow_up")]))])].

(** simulator/game_data/class_skills/caster/smn.py lines 571-602: summon_titan_ii *)
Definition smn_m31 : pmethod := mkMethod "summon_titan_ii" []
  [SAsg "name" (EStr "Earthen Fury (pet)"); SAsg "earthen_fury_follow_up" (ECall "FollowUp" [] [("skill", (ECall "Skill" [] [("name", (EVar "name"));
  ("is_GCD", (EBool true)); ("status_effect_denylist", (ETup [(EStr "Dragon Sight")])); ("damage_spec", (EDict [((EConst
  "SimConsts.DEFAULT_CONDITION"), (ECall "DamageSpec" [] [("potency", (EPot (EVar "name"))); ("damage_class", (EConst "DamageClass.PET"));
  ("pet_job_mod_override", (EInt 100)); ("pet_scalar", (EFlt 22 25))]))])); ("has_aoe", (EBool true)); ("aoe_dropoff", (EFlt 3 5))]));
  ("snapshot_buffs_with_parent", (EBool false)); ("snapshot_debuffs_with_parent", (EBool false)); ("delay_after_parent_application", (EInt 2100));
  ("primary_target_only", (EBool false))]); SAsg "name" (EStr "Summon Titan II"); SRet (ECall "Skill" [] [("name", (EVar "name")); ("is_GCD", (EBool
  true)); ("timing_spec", (ESelf "__smn_instant_timing_spec")); ("follow_up_skills", (ETup [(EVar "earthen_fury_follow_up")]))])].

(** simulator/game_data/class_skills/caster/smn.py lines 605-636: summon_garuda_ii *)
Definition smn_m32 : pmethod := mkMethod "summon_garuda_ii" []
  [SAsg "name" (EStr "Aerial Blast (pet)"); SAsg "aerial_blast_follow_up" (ECall "FollowUp" [] [("skill", (ECall "Skill" [] [("name", (EVar "name"));
  ("is_GCD", (EBool true)); ("status_effect_denylist", (ETup [(EStr "Dragon Sight")])); ("damage_spec", (EDict [((EConst
  "SimConsts.DEFAULT_CONDITION"), (ECall "DamageSpec" [] [("potency", (EPot (EVar "name"))); ("damage_class", (EConst "DamageClass.PET"));
  ("pet_job_mod_override", (EInt 100)); ("pet_scalar", (EFlt 22 25))]))])); ("has_aoe", (EBool true)); ("aoe_dropoff", (EFlt 3 5))]));
  ("snapshot_buffs_with_parent", (EBool false)); ("snapshot_debuffs_with_parent", (EBool false)); ("delay_after_parent_application", (EInt 2100));
  ("primary_target_only", (EBool false))]); SAsg "name" (EStr "Summon Garuda II"); SRet (ECall "Skill" [] [("name", (EVar "name")); ("is_GCD", (EBool
  true)); ("timing_spec", (ESelf "__smn_instant_timing_spec")); ("follow_up_skills", (ETup [(EVar "aerial_blast_follow_up")]))])].

(** simulator/game_data/class_skills/caster/smn.py lines 639-652: necrotize *)
Definition smn_m33 : pmethod := mkMethod "necrotize" []
  [SIf (ELev OLt K92) [SRet ENone] []; SAsg "name" (EStr "Necrotize"); SRet (ECall "Skill" [] [("name", (EVar "name")); ("is_GCD", (EBool false));
  ("damage_spec", (ECall "DamageSpec" [] [("potency", (EPot (EVar "name")))])); ("timing_spec", (ECall "TimingSpec" [] [("base_cast_time", (EInt 0));
  ("animation_lock", (ESelf "__base_animation_lock")); ("application_delay", (EInt 710))]))])].

(** simulator/game_data/class_skills/caster/smn.py lines 655-669: searing_flash *)
Definition smn_m34 : pmethod := mkMethod "searing_flash" []
  [SIf (ELev OLt K96) [SRet ENone] []; SAsg "name" (EStr "Searing Flash"); SRet (ECall "Skill" [] [("name", (EVar "name")); ("is_GCD", (EBool false));
  ("damage_spec", (ECall "DamageSpec" [] [("potency", (EPot (EVar "name")))])); ("timing_spec", (ECall "TimingSpec" [] [("base_cast_time", (EInt 0));
  ("animation_lock", (ESelf "__base_animation_lock")); ("application_delay", (EInt 800))])); ("has_aoe", (EBool true))])].

(** simulator/game_data/class_skills/caster/smn.py lines 671-683: __get_scarlet_flame_skill_for_follow_up *)
Definition smn_m35 : pmethod := mkMethod "__get_scarlet_flame_skill_for_follow_up" []
  [SAsg "name" (EStr "Scarlet Flame (pet)"); SRet (ECall "Skill" [] [("name", (EVar "name")); ("is_GCD", (EBool false)); ("status_effect_denylist",
  (ETup [(EStr "Dragon Sight")])); ("damage_spec", (ECall "DamageSpec" [] [("potency", (EPot (EVar "name"))); ("damage_class", (EConst
  "DamageClass.PET")); ("pet_job_mod_override", (EInt 100)); ("pet_scalar", (EFlt 22 25))]))])].

(** simulator/game_data/class_skills/caster/smn.py lines 686-701: scarlet_flame *)
Definition smn_m36 : pmethod := mkMethod "scarlet_flame" []
  [SAsg "name" (EStr "Scarlet Flame"); SRet (ECall "Skill" [] [("name", (EVar "name")); ("is_GCD", (EBool false)); ("status_effect_denylist", (ETup
  [(EStr "Dragon Sight")])); ("timing_spec", (ESelf "auto_timing_spec")); ("follow_up_skills", (ETup [(ECall "FollowUp" [] [("skill", (EMeth
  "__get_scarlet_flame_skill_for_follow_up" [] [])); ("delay_after_parent_application", (EInt 0)); ("snapshot_buffs_with_parent", (EBool false));
  ("snapshot_debuffs_with_parent", (EBool false))])]))])].

(** simulator/game_data/class_skills/caster/smn.py lines 704-742: summon_phoenix *)
Definition smn_m37 : pmethod := mkMethod "summon_phoenix" []
  [SAsg "name" (EStr "Summon Phoenix"); SAsg "scarlet_flame_skill_for_follow_up" (EMeth "__get_scarlet_flame_skill_for_follow_up" [] []); SRet (ECall
  "Skill" [] [("name", (EVar "name")); ("is_GCD", (EBool true)); ("timing_spec", (ESelf "__smn_instant_timing_spec")); ("follow_up_skills", (EDict
  [((EConst "SimConsts.DEFAULT_CONDITION"), (ETup [(ECall "FollowUp" [] [("skill", (EVar "scarlet_flame_skill_for_follow_up"));
  ("delay_after_parent_application", (EInt 3650)); ("snapshot_buffs_with_parent", (EBool false)); ("snapshot_debuffs_with_parent", (EBool false))]);
  (ECall "FollowUp" [] [("skill", (EVar "scarlet_flame_skill_for_follow_up")); ("delay_after_parent_application", (EInt 6250));
  ("snapshot_buffs_with_parent", (EBool false)); ("snapshot_debuffs_with_parent", (EBool false))]); (ECall "FollowUp" [] [("skill", (EVar
  "scarlet_flame_skill_for_follow_up")); ("delay_after_parent_application", (EInt 10850)); ("snapshot_buffs_with_parent", (EBool false));
  ("snapshot_debuffs_with_parent", (EBool false))]); (ECall "FollowUp" [] [("skill", (EVar "scarlet_flame_skill_for_follow_up"));
  ("delay_after_parent_application", (EInt 12500)); ("snapshot_buffs_with_parent", (EBool false)); ("snapshot_debuffs_with_parent", (EBool
  false))])])); ((EStr "Manual"), (ECall "tuple" [] []))]))])].

(** simulator/game_data/class_skills/caster/smn.py lines 744-756: __get_wyrmwave_skill_for_follow_up *)
Definition smn_m38 : pmethod := mkMethod "__get_wyrmwave_skill_for_follow_up" []
  [SAsg "name" (EStr "Wyrmwave (pet)"); SRet (ECall "Skill" [] [("name", (EVar "name")); ("is_GCD", (EBool false)); ("status_effect_denylist", (ETup
  [(EStr "Dragon Sight")])); ("damage_spec", (ECall "DamageSpec" [] [("potency", (EPot (EVar "name"))); ("damage_class", (EConst "DamageClass.PET"));
  ("pet_job_mod_override", (EInt 100)); ("pet_scalar", (EFlt 22 25))]))])].

(** simulator/game_data/class_skills/caster/smn.py lines 759-775: wyrmwave *)
Definition smn_m39 : pmethod := mkMethod "wyrmwave" []
  [SAsg "name" (EStr "Wyrmwave"); SRet (ETup [(ECall "Skill" [] [("name", (EVar "name")); ("is_GCD", (EBool false)); ("timing_spec", (ESelf
  "auto_timing_spec")); ("follow_up_skills", (ETup [(ECall "FollowUp" [] [("skill", (EMeth "__get_wyrmwave_skill_for_follow_up" [] []));
  ("delay_after_parent_application", (EInt 0)); ("snapshot_buffs_with_parent", (EBool false)); ("snapshot_debuffs_with_parent", (EBool
  false))])]))])])].

(** simulator/game_data/class_skills/caster/smn.py lines 778-814: summon_bahamut *)
Definition smn_m40 : pmethod := mkMethod "summon_bahamut" []
  [SAsg "name" (EStr "Summon Bahamut"); SAsg "wyrmwave_skill_for_follow_up" (EMeth "__get_wyrmwave_skill_for_follow_up" [] []); SRet (ECall "Skill" []
  [("name", (EVar "name")); ("is_GCD", (EBool true)); ("timing_spec", (ESelf "__smn_instant_timing_spec")); ("follow_up_skills", (EDict [((EConst
  "SimConsts.DEFAULT_CONDITION"), (ETup [(ECall "FollowUp" [] [("skill", (EVar "wyrmwave_skill_for_follow_up")); ("delay_after_parent_application",
  (EInt 3200)); ("snapshot_buffs_with_parent", (EBool false)); ("snapshot_debuffs_with_parent", (EBool false))]); (ECall "FollowUp" [] [("skill",
  (EVar "wyrmwave_skill_for_follow_up")); ("delay_after_parent_application", (EInt 6350)); ("snapshot_buffs_with_parent", (EBool false));
  ("snapshot_debuffs_with_parent", (EBool false))]); (ECall "FollowUp" [] [("skill", (EVar "wyrmwave_skill_for_follow_up"));
  ("delay_after_parent_application", (EInt 10950)); ("snapshot_buffs_with_parent", (EBool false)); ("snapshot_debuffs_with_parent", (EBool false))]);
  (ECall "FollowUp" [] [("skill", (EVar "wyrmwave_skill_for_follow_up")); ("delay_after_parent_application", (EInt 12500));
  ("snapshot_buffs_with_parent", (EBool false)); ("snapshot_debuffs_with_parent", (EBool false))])])); ((EStr "Manual"), (ECall "tuple" [] []))]))])].

(** simulator/game_data/class_skills/caster/smn.py lines 817-830: luxwave *)
Definition smn_m41 : pmethod := mkMethod "luxwave" [("display_name", Some (EStr "Luxwave"))]
  [SIf (ELev OLt K100) [SRet ENone] []; SRet (ECall "Skill" [] [("name", (EVar "display_name")); ("is_GCD", (EBool false)); ("damage_spec", (ECall
  "DamageSpec" [] [("potency", (EPot (EStr "Luxwave"))); ("damage_class", (EConst "DamageClass.PET")); ("pet_job_mod_override", (EInt 100));
  ("pet_scalar", (EFlt 22 25))])); ("timing_spec", (ESelf "auto_timing_spec"))])].

(** simulator/game_data/class_skills/caster/smn.py lines 833-872: summon_solar_bahamut *)
Definition smn_m42 : pmethod := mkMethod "summon_solar_bahamut" []
  [SIf (ELev OLt K100) [SRet ENone] []; SAsg "name" (EStr "Summon Solar Bahamut"); SAsg "luxwave_skill_for_follow_up" (EMeth "luxwave" []
  [("display_name", (EStr "Luxwave (pet)"))]); SRet (ECall "Skill" [] [("name", (EVar "name")); ("is_GCD", (EBool true)); ("timing_spec", (ESelf
  "__smn_instant_timing_spec")); ("follow_up_skills", (EDict [((EConst "SimConsts.DEFAULT_CONDITION"), (ETup [(ECall "FollowUp" [] [("skill", (EVar
  "luxwave_skill_for_follow_up")); ("delay_after_parent_application", (EInt 3200)); ("snapshot_buffs_with_parent", (EBool false));
  ("snapshot_debuffs_with_parent", (EBool false))]); (ECall "FollowUp" [] [("skill", (EVar "luxwave_skill_for_follow_up"));
  ("delay_after_parent_application", (EInt 6350)); ("snapshot_buffs_with_parent", (EBool false)); ("snapshot_debuffs_with_parent", (EBool false))]);
  (ECall "FollowUp" [] [("skill", (EVar "luxwave_skill_for_follow_up")); ("delay_after_parent_application", (EInt 10950));
  ("snapshot_buffs_with_parent", (EBool false)); ("snapshot_debuffs_with_parent", (EBool false))]); (ECall "FollowUp" [] [("skill", (EVar
  "luxwave_skill_for_follow_up")); ("delay_after_parent_application", (EInt 12500)); ("snapshot_buffs_with_parent", (EBool false));
  ("snapshot_debuffs_with_parent", (EBool false))])])); ((EStr "Manual"), (ECall "tuple" [] []))]))])].

(** simulator/game_data/class_skills/caster/smn.py lines 875-888: umbral_impulse *)
Definition smn_m43 : pmethod := mkMethod "umbral_impulse" []
  [SIf (ELev OLt K100) [SRet ENone] []; SAsg "name" (EStr "Umbral Impulse"); SRet (ECall "Skill" [] [("name", (EVar "name")); ("is_GCD", (EBool
  true)); ("damage_spec", (ECall "DamageSpec" [] [("potency", (EPot (EVar "name")))])); ("timing_spec", (ECall "TimingSpec" [] [("base_cast_time",
  (EInt 0)); ("animation_lock", (ESelf "__base_animation_lock")); ("application_delay", (EInt 800))]))])].

(** simulator/game_data/class_skills/caster/smn.py lines 891-905: umbral_flare *)
Definition smn_m44 : pmethod := mkMethod "umbral_flare" []
  [SIf (ELev OLt K100) [SRet ENone] []; SAsg "name" (EStr "Umbral Flare"); SRet (ECall "Skill" [] [("name", (EVar "name")); ("is_GCD", (EBool true));
  ("damage_spec", (ECall "DamageSpec" [] [("potency", (EPot (EVar "name")))])); ("timing_spec", (ECall "TimingSpec" [] [("base_cast_time", (EInt 0));
  ("animation_lock", (ESelf "__base_animation_lock")); ("application_delay", (EInt 530))])); ("has_aoe", (EBool true))])].

(** simulator/game_data/class_skills/caster/smn.py lines 908-927: sunflare *)
Definition smn_m45 : pmethod := mkMethod "sunflare" []
  [SIf (ELev OLt K100) [SRet ENone] []; SAsg "name" (EStr "Sunflare"); SRet (ECall "Skill" [] [("name", (EVar "name")); ("is_GCD", (EBool false));
  ("damage_spec", (EDict [((EConst "SimConsts.DEFAULT_CONDITION"), (ECall "DamageSpec" [] [("potency", (EPot (EVar "name")))]))])); ("timing_spec",
  (ECall "TimingSpec" [] [("base_cast_time", (EInt 0)); ("animation_lock", (ESelf "__base_animation_lock")); ("application_delay", (EInt 800))]));
  ("has_aoe", (EBool true)); ("aoe_dropoff", (EFlt 3 5))])].

(** simulator/game_data/class_skills/caster/smn.py lines 929-953: __get_exodus_follow_up *)
Definition smn_m46 : pmethod := mkMethod "__get_exodus_follow_up" []
  [SIf (ELev OLt K100) [SRet ENone] []; SAsg "name" (EStr "Exodus (pet)"); SRet (ECall "FollowUp" [] [("skill", (ECall "Skill" [] [("name", (EVar
  "name")); ("is_GCD", (EBool false)); ("damage_spec", (EDict [((EConst "SimConsts.DEFAULT_CONDITION"), (ECall "DamageSpec" [] [("potency", (EPot
  (EVar "name"))); ("damage_class", (EConst "DamageClass.PET")); ("pet_job_mod_override", (EInt 100)); ("pet_scalar", (EFlt 22 25))]))]));
  ("timing_spec", (ESelf "__smn_instant_timing_spec")); ("has_aoe", (EBool true)); ("aoe_dropoff", (EFlt 3 5))])); ("delay_after_parent_application",
  (EInt 0)); ("snapshot_buffs_with_parent", (EBool false)); ("snapshot_debuffs_with_parent", (EBool false)); ("primary_target_only", (EBool
  false))])].

(** simulator/game_data/class_skills/caster/smn.py lines 956-965: exodus *)
Definition smn_m47 : pmethod := mkMethod "exodus" []
  [SIf (ELev OLt K100) [SRet ENone] []; SAsg "display_name" (EStr "Exodus"); SRet (ECall "Skill" [] [("name", (EVar "display_name")); ("is_GCD",
  (EBool false)); ("timing_spec", (ESelf "__smn_instant_timing_spec")); ("follow_up_skills", (ETup [(EMeth "__get_exodus_follow_up" [] [])]))])].

(** simulator/game_data/class_skills/caster/smn.py lines 968-977: enkindle_solar_bahamut *)
Definition smn_m48 : pmethod := mkMethod "enkindle_solar_bahamut" []
  [SIf (ELev OLt K100) [SRet ENone] []; SAsg "name" (EStr "Enkindle Solar Bahamut"); SRet (ECall "Skill" [] [("name", (EVar "name")); ("is_GCD",
  (EBool false)); ("timing_spec", (ESelf "__smn_instant_timing_spec")); ("follow_up_skills", (ETup [(EMeth "__get_exodus_follow_up" [] [])]))])].

(** simulator/game_data/class_skills/caster/smn.py lines 984-996: aethercharge *)
Definition smn_m49 : pmethod := mkMethod "aethercharge" []
  [SAsg "name" (EStr "Aethercharge"); SRet (ECall "Skill" [] [("name", (EVar "name")); ("is_GCD", (EBool true)); ("timing_spec", (ESelf
  "__smn_instant_timing_spec")); ("buff_spec", (ECall "StatusEffectSpec" [] [("duration", (EBin BMul (EInt 15) (EInt 1000))); ("num_uses", (EInt 1));
  ("add_to_skill_modifier_condition", (EBool true)); ("skill_allowlist", (ETup [(EStr "Ruin III")]))]))])].

(** simulator/game_data/class_skills/caster/smn.py lines 999-1017: swiftcast *)
Definition smn_m50 : pmethod := mkMethod "swiftcast" []
  [SAsg "name" (EStr "Swiftcast"); SRet (ECall "Skill" [] [("name", (EVar "name")); ("is_GCD", (EBool false)); ("timing_spec", (ESelf
  "__smn_instant_timing_spec")); ("buff_spec", (ECall "StatusEffectSpec" [] [("flat_cast_time_reduction", (EConst "math.inf")); ("duration", (EBin
  BMul (EInt 10) (EInt 1000))); ("num_uses", (EInt 1)); ("skill_allowlist", (ETup [(EStr "Ruin III"); (EStr "Ruby Rite"); (EStr "Tri-disaster"); (EStr
  "Ruby Catastrophe"); (EStr "Slipstream")]))]))])].

(** simulator/game_data/class_skills/caster/smn.py lines 1020-1029: summon_carbuncle *)
Definition smn_m51 : pmethod := mkMethod "summon_carbuncle" []
  [SAsg "name" (EStr "Summon Carbuncle"); SRet (ECall "Skill" [] [("name", (EVar "name")); ("is_GCD", (EBool true)); ("timing_spec", (ECall
  "TimingSpec" [] [("base_cast_time", (EInt 1500)); ("animation_lock", (ESelf "__smn_caster_tax_ms"))]))])].

(** simulator/game_data/class_skills/caster/smn.py lines 1032-1034: summon_ifrit *)
Definition smn_m52 : pmethod := mkMethod "summon_ifrit" []
  [SAsg "name" (EStr "Summon Ifrit"); SRet (ECall "Skill" [] [("name", (EVar "name")); ("is_GCD", (EBool true)); ("timing_spec", (ESelf
  "__smn_instant_timing_spec"))])].

(** simulator/game_data/class_skills/caster/smn.py lines 1037-1039: summon_titan *)
Definition smn_m53 : pmethod := mkMethod "summon_titan" []
  [SAsg "name" (EStr "Summon Titan"); SRet (ECall "Skill" [] [("name", (EVar "name")); ("is_GCD", (EBool true)); ("timing_spec", (ESelf
  "__smn_instant_timing_spec"))])].

(** simulator/game_data/class_skills/caster/smn.py lines 1042-1044: summon_garuda *)
Definition smn_m54 : pmethod := mkMethod "summon_garuda" []
  [SAsg "name" (EStr "Summon Garuda"); SRet (ECall "Skill" [] [("name", (EVar "name")); ("is_GCD", (EBool true)); ("timing_spec", (ESelf
  "__smn_instant_timing_spec"))])].

(** simulator/game_data/class_skills/caster/smn.py lines 1047-1049: astral_flow *)
Definition smn_m55 : pmethod := mkMethod "astral_flow" []
  [SAsg "name" (EStr "Astral Flow"); SRet (ECall "Skill" [] [("name", (EVar "name")); ("is_GCD", (EBool true)); ("timing_spec", (ESelf
  "__smn_instant_timing_spec"))])].

(** simulator/game_data/class_skills/caster/smn.py lines 19-26: __init__ after super().__init__ *)
Definition smn_init : list stmt :=
  [SAttr "_job_class" (EStr "SMN"); SAttr "__smn_caster_tax_ms" (EInt 100); SAttr "__base_animation_lock" (EInt 600); SAttr
  "__smn_instant_timing_spec" (ECall "TimingSpec" [] [("base_cast_time", (EInt 0)); ("animation_lock", (ESelf "__base_animation_lock"))])].

(** simulator/game_data/class_skills/caster/smn.py lines 17-1049: class SmnSkills; the decorated methods in the order of [dir] *)
Definition smn_class : pclass := mkClass [] smn_init
  [smn_m0; smn_m1; smn_m2; smn_m3; smn_m4; smn_m5; smn_m6; smn_m7; smn_m8; smn_m9; smn_m10; smn_m11; smn_m12; smn_m13; smn_m14; smn_m15; smn_m16;
  smn_m17; smn_m18; smn_m19; smn_m20; smn_m21; smn_m22; smn_m23; smn_m24; smn_m25; smn_m26; smn_m27; smn_m28; smn_m29; smn_m30; smn_m31; smn_m32;
  smn_m33; smn_m34; smn_m35; smn_m36; smn_m37; smn_m38; smn_m39; smn_m40; smn_m41; smn_m42; smn_m43; smn_m44; smn_m45; smn_m46; smn_m47; smn_m48;
  smn_m49; smn_m50; smn_m51; smn_m52; smn_m53; smn_m54; smn_m55]
  ["aethercharge"; "akh_morn"; "astral_flare"; "astral_flow"; "astral_impulse"; "auto"; "brand_of_purgatory"; "crimson_cyclone"; "crimson_strike";
  "deathflare"; "emerald_catastrophe"; "emerald_rite"; "energy_drain"; "energy_siphon"; "enkindle_bahamut"; "enkindle_phoenix";
  "enkindle_solar_bahamut"; "exodus"; "fester"; "fountain_of_fire"; "luxwave"; "mountain_buster"; "necrotize"; "painflare"; "revelation";
  "ruby_catastrophe"; "ruby_rite"; "ruin_iii"; "ruin_iv"; "scarlet_flame"; "searing_flash"; "searing_light"; "slipstream"; "summon_bahamut";
  "summon_carbuncle"; "summon_garuda"; "summon_garuda_ii"; "summon_ifrit"; "summon_ifrit_ii"; "summon_phoenix"; "summon_solar_bahamut";
  "summon_titan"; "summon_titan_ii"; "sunflare"; "swiftcast"; "topaz_catastrophe"; "topaz_rite"; "tri_disaster"; "umbral_flare"; "umbral_impulse";
  "wyrmwave"]
  []
  smn_data.
