(** * WHM: the shipped skill definitions.

    Generated by tools/gen_game_data.py from
    simulator/game_data/class_skills/healer/whm.py and simulator/game_data/class_skills/healer/whm_data.py. *)

From Coq Require Import ZArith List String.
From Verif Require Import Py.
Import ListNotations.
Open Scope string_scope.
Open Scope Z_scope.

(** simulator/game_data/class_skills/healer/whm_data.py lines 8-26, in dict-literal order *)
Definition whm_data : data_table := [
  ("Glare III", [(90, [("potency", [(V655, (EInt 310))])]); (100, [("potency", [(V70, (EInt 330)); (V71, (EInt 340))])])]);
  ("Glare IV", [(100, [("potency", [(V70, (EInt 640))])])]);
  ("Assize", [(90, [("potency", [(V655, (EInt 400))])]); (100, [("potency", [(V70, (EInt 400))])])]);
  ("Dia (dot)", [(90, [("potency", [(V655, (EInt 65))])]); (100, [("potency", [(V70, (EInt 70)); (V705, (EInt 75))])])]);
  ("Dia", [(90, [("potency", [(V655, (EInt 65))])]); (100, [("potency", [(V70, (EInt 70)); (V705, (EInt 75))])])]);
  ("Afflatus Misery", [(90, [("potency", [(V655, (EInt 1240))])]); (100, [("potency", [(V70, (EInt 1320)); (V71, (EInt 1360))])])]);
  ("Holy III", [(90, [("potency", [(V655, (EInt 150))]); ("cast time", [(V655, (EInt 2500)); (V71, (EInt 1500))])]); (100, [("potency", [(V70, (EInt
  150))]); ("cast time", [(V70, (EInt 2500)); (V71, (EInt 1500))])])])].

(** simulator/game_data/class_skills/healer/whm.py lines 24-33: auto *)
Definition whm_m0 : pmethod := mkMethod "auto" []
  [SAsg "name" (EStr "Auto"); SRet (ECall "Skill" [] [("name", (EVar "name")); ("is_GCD", (EBool false)); ("timing_spec", (ESelf "auto_timing_spec"));
  ("damage_spec", (ECall "DamageSpec" [] [("potency", (EInt 90)); ("damage_class", (EConst "DamageClass.AUTO")); ("trait_damage_mult_override", (EInt
  1))]))])].

(** simulator/game_data/class_skills/healer/whm.py lines 36-45: glare_iii *)
Definition whm_m1 : pmethod := mkMethod "glare_iii" []
  [SAsg "name" (EStr "Glare III"); SRet (ECall "Skill" [] [("name", (EVar "name")); ("is_GCD", (EBool true)); ("timing_spec", (ECall "TimingSpec" []
  [("base_cast_time", (EInt 1500)); ("animation_lock", (EInt 100)); ("application_delay", (EInt 1290))])); ("damage_spec", (ECall "DamageSpec" []
  [("potency", (EPot (EVar "name")))]))])].

(** simulator/game_data/class_skills/healer/whm.py lines 48-66: glare_iv *)
Definition whm_m2 : pmethod := mkMethod "glare_iv" []
  [SIf (ELev OLt K92) [SRet ENone] []; SAsg "name" (EStr "Glare IV"); SRet (ECall "Skill" [] [("name", (EVar "name")); ("is_GCD", (EBool true));
  ("timing_spec", (ECall "TimingSpec" [] [("base_cast_time", (EInt 0)); ("animation_lock", (EInt 100)); ("application_delay", (EInt 850))]));
  ("damage_spec", (EDict [((EConst "SimConsts.DEFAULT_CONDITION"), (ECall "DamageSpec" [] [("potency", (EPot (EVar "name")))]))])); ("has_aoe", (EBool
  true)); ("aoe_dropoff", (EFlt 2 5))])].

(** simulator/game_data/class_skills/healer/whm.py lines 69-79: assize *)
Definition whm_m3 : pmethod := mkMethod "assize" []
  [SAsg "name" (EStr "Assize"); SRet (ECall "Skill" [] [("name", (EVar "name")); ("is_GCD", (EBool false)); ("timing_spec", (ECall "TimingSpec" []
  [("base_cast_time", (EInt 0)); ("animation_lock", (EInt 650)); ("application_delay", (EInt 670))])); ("damage_spec", (ECall "DamageSpec" []
  [("potency", (EPot (EVar "name")))])); ("has_aoe", (EBool true))])].

(** simulator/game_data/class_skills/healer/whm.py lines 82-110: dia *)
Definition whm_m4 : pmethod := mkMethod "dia" []
  [SAsg "name" (EStr "Dia (dot)"); SAsg "dia_dot_whm" (ECall "Skill" [] [("name", (EVar "name")); ("is_GCD", (EBool false)); ("damage_spec", (ECall
  "DamageSpec" [] [("potency", (EPot (EVar "name"))); ("damage_class", (EConst "DamageClass.MAGICAL_DOT"))]))]); SAsg "name" (EStr "Dia"); SRet (ECall
  "Skill" [] [("name", (EVar "name")); ("is_GCD", (EBool true)); ("timing_spec", (ECall "TimingSpec" [] [("base_cast_time", (EInt 0));
  ("animation_lock", (EInt 650)); ("application_delay", (EInt 1290))])); ("damage_spec", (ECall "DamageSpec" [] [("potency", (EPot (EVar "name")))]));
  ("follow_up_skills", (ETup [(ECall "FollowUp" [] [("skill", (EVar "dia_dot_whm")); ("delay_after_parent_application", (EInt 0)); ("dot_duration",
  (EBin BMul (EInt 30) (EInt 1000))); ("snapshot_buffs_with_parent", (EBool true)); ("snapshot_debuffs_with_parent", (EBool true))])]))])].

(** simulator/game_data/class_skills/healer/whm.py lines 113-128: afflatus_misery *)
Definition whm_m5 : pmethod := mkMethod "afflatus_misery" []
  [SAsg "name" (EStr "Afflatus Misery"); SRet (ECall "Skill" [] [("name", (EVar "name")); ("is_GCD", (EBool true)); ("timing_spec", (ECall
  "TimingSpec" [] [("base_cast_time", (EInt 0)); ("animation_lock", (EInt 650)); ("application_delay", (EInt 580))])); ("damage_spec", (EDict
  [((EConst "SimConsts.DEFAULT_CONDITION"), (ECall "DamageSpec" [] [("potency", (EPot (EVar "name")))]))])); ("has_aoe", (EBool true));
  ("aoe_dropoff", (EFlt 1 2))])].

(** simulator/game_data/class_skills/healer/whm.py lines 131-143: holy_iii *)
Definition whm_m6 : pmethod := mkMethod "holy_iii" []
  [SAsg "name" (EStr "Holy III"); SRet (ECall "Skill" [] [("name", (EVar "name")); ("is_GCD", (EBool true)); ("timing_spec", (ECall "TimingSpec" []
  [("base_cast_time", (EData (EVar "name") (EStr "cast time"))); ("animation_lock", (EInt 100)); ("application_delay", (EInt 2130))]));
  ("damage_spec", (ECall "DamageSpec" [] [("potency", (EPot (EVar "name")))])); ("has_aoe", (EBool true))])].

(** simulator/game_data/class_skills/healer/whm.py lines 146-159: presence_of_mind *)
Definition whm_m7 : pmethod := mkMethod "presence_of_mind" []
  [SAsg "name" (EStr "Presence of Mind"); SRet (ECall "Skill" [] [("name", (EVar "name")); ("is_GCD", (EBool false)); ("timing_spec", (ECall
  "TimingSpec" [] [("base_cast_time", (EInt 0)); ("animation_lock", (EInt 650)); ("application_delay", (EInt 530))])); ("buff_spec", (ECall
  "StatusEffectSpec" [] [("duration", (EBin BMul (EInt 15) (EInt 1000))); ("haste_time_reduction", (EFlt 1 5)); ("auto_attack_delay_reduction", (EFlt
  1 5))]))])].

(** simulator/game_data/class_skills/healer/whm.py lines 162-170: afflatus_rapture *)
Definition whm_m8 : pmethod := mkMethod "afflatus_rapture" []
  [SAsg "name" (EStr "Afflatus Rapture"); SRet (ECall "Skill" [] [("name", (EVar "name")); ("is_GCD", (EBool true)); ("timing_spec", (ECall
  "TimingSpec" [] [("base_cast_time", (EInt 0)); ("animation_lock", (EInt 650)); ("application_delay", (EInt 580))]))])].

(** simulator/game_data/class_skills/healer/whm.py lines 173-181: afflatus_solace *)
Definition whm_m9 : pmethod := mkMethod "afflatus_solace" []
  [SAsg "name" (EStr "Afflatus Solace"); SRet (ECall "Skill" [] [("name", (EVar "name")); ("is_GCD", (EBool true)); ("timing_spec", (ECall
  "TimingSpec" [] [("base_cast_time", (EInt 0)); ("animation_lock", (EInt 650)); ("application_delay", (EInt 580))]))])].

(** simulator/game_data/class_skills/healer/whm.py lines 184-194: medica_iii *)
Definition whm_m10 : pmethod := mkMethod "medica_iii" []
  [SIf (ELev OLt K96) [SRet ENone] []; SAsg "name" (EStr "Medica III"); SRet (ECall "Skill" [] [("name", (EVar "name")); ("is_GCD", (EBool true));
  ("timing_spec", (ECall "TimingSpec" [] [("base_cast_time", (EInt 2000)); ("animation_lock", (EInt 100)); ("application_delay", (EInt 0))]))])].

(** simulator/game_data/class_skills/healer/whm.py lines 197-201: divine_caress *)
Definition whm_m11 : pmethod := mkMethod "divine_caress" []
  [SIf (ELev OLt K100) [SRet ENone] []; SAsg "name" (EStr "Divine Caress"); SRet (ECall "Skill" [] [("name", (EVar "name")); ("is_GCD", (EBool
  false)); ("timing_spec", (ESelf "instant_timing_spec"))])].

(** simulator/game_data/class_skills/healer/whm.py lines 204-216: swiftcast *)
Definition whm_m12 : pmethod := mkMethod "swiftcast" []
  [SAsg "name" (EStr "Swiftcast"); SRet (ECall "Skill" [] [("name", (EVar "name")); ("is_GCD", (EBool false)); ("timing_spec", (ESelf
  "instant_timing_spec")); ("buff_spec", (ECall "StatusEffectSpec" [] [("flat_cast_time_reduction", (EConst "math.inf")); ("duration", (EBin BMul
  (EInt 10) (EInt 1000))); ("num_uses", (EInt 1)); ("skill_allowlist", (ETup [(EStr "Glare III"); (EStr "Holy III")]))]))])].

(** simulator/game_data/class_skills/healer/whm.py lines 19-21: __init__ after super().__init__ *)
Definition whm_init : list stmt :=
  [SAttr "_job_class" (EStr "WHM")].

(** simulator/game_data/class_skills/healer/whm.py lines 17-216: class WhmSkills; the decorated methods in the order of [dir] *)
Definition whm_class : pclass := mkClass [] whm_init
  [whm_m0; whm_m1; whm_m2; whm_m3; whm_m4; whm_m5; whm_m6; whm_m7; whm_m8; whm_m9; whm_m10; whm_m11; whm_m12]
  ["afflatus_misery"; "afflatus_rapture"; "afflatus_solace"; "assize"; "auto"; "dia"; "divine_caress"; "glare_iii"; "glare_iv"; "holy_iii";
  "medica_iii"; "presence_of_mind"; "swiftcast"]
  []
  whm_data.
