(** * SGE: the shipped skill definitions.

    Generated by tools/gen_game_data.py from
    simulator/game_data/class_skills/healer/sge.py and simulator/game_data/class_skills/healer/sge_data.py. *)

From Coq Require Import ZArith List String.
From Verif Require Import Py.
Import ListNotations.
Open Scope string_scope.
Open Scope Z_scope.

(** simulator/game_data/class_skills/healer/sge_data.py lines 8-26, in dict-literal order *)
Definition sge_data : data_table := [
  ("Dosis III", [(90, [("potency", [(V655, (EInt 330))])]); (100, [("potency", [(V70, (EInt 360)); (V71, (EInt 370))])])]);
  ("Phlegma III", [(90, [("potency", [(V655, (EInt 600))])]); (100, [("potency", [(V70, (EInt 600))])])]);
  ("Toxikon II", [(90, [("potency", [(V655, (EInt 330))])]); (100, [("potency", [(V70, (EInt 360)); (V71, (EInt 370))])])]);
  ("Dyskrasia II", [(90, [("potency", [(V655, (EInt 170))])]); (100, [("potency", [(V70, (EInt 170))])])]);
  ("Pneuma", [(90, [("potency", [(V655, (EInt 330))])]); (100, [("potency", [(V70, (EInt 360)); (V71, (EInt 370))])])]);
  ("Eukrasian Dosis III (dot)", [(90, [("potency", [(V655, (EInt 75))]); ("potency_dysk", [(V70, (EInt 40))])]); (100, [("potency", [(V70, (EInt
  75))]); ("potency_dysk", [(V70, (EInt 40))])])]);
  ("Psyche", [(100, [("potency", [(V70, (EInt 600))])])])].

(** simulator/game_data/class_skills/healer/sge.py lines 24-33: auto *)
Definition sge_m0 : pmethod := mkMethod "auto" []
  [SAsg "name" (EStr "Auto"); SRet (ECall "Skill" [] [("name", (EVar "name")); ("is_GCD", (EBool false)); ("timing_spec", (ESelf "auto_timing_spec"));
  ("damage_spec", (ECall "DamageSpec" [] [("potency", (EInt 90)); ("damage_class", (EConst "DamageClass.AUTO")); ("trait_damage_mult_override", (EInt
  1))]))])].

(** simulator/game_data/class_skills/healer/sge.py lines 36-45: dosis_iii *)
Definition sge_m1 : pmethod := mkMethod "dosis_iii" []
  [SAsg "name" (EStr "Dosis III"); SRet (ECall "Skill" [] [("name", (EVar "name")); ("is_GCD", (EBool true)); ("timing_spec", (ECall "TimingSpec" []
  [("base_cast_time", (EInt 1500)); ("animation_lock", (EInt 100)); ("application_delay", (EInt 670))])); ("damage_spec", (ECall "DamageSpec" []
  [("potency", (EPot (EVar "name")))]))])].

(** simulator/game_data/class_skills/healer/sge.py lines 48-63: phlegma_iii *)
Definition sge_m2 : pmethod := mkMethod "phlegma_iii" []
  [SAsg "name" (EStr "Phlegma III"); SRet (ECall "Skill" [] [("name", (EVar "name")); ("is_GCD", (EBool true)); ("timing_spec", (ECall "TimingSpec" []
  [("base_cast_time", (EInt 0)); ("animation_lock", (EInt 650)); ("application_delay", (EInt 670))])); ("damage_spec", (EDict [((EConst
  "SimConsts.DEFAULT_CONDITION"), (ECall "DamageSpec" [] [("potency", (EPot (EVar "name")))]))])); ("has_aoe", (EBool true)); ("aoe_dropoff", (EFlt 1
  2))])].

(** simulator/game_data/class_skills/healer/sge.py lines 66-81: toxikon_ii *)
Definition sge_m3 : pmethod := mkMethod "toxikon_ii" []
  [SAsg "name" (EStr "Toxikon II"); SRet (ECall "Skill" [] [("name", (EVar "name")); ("is_GCD", (EBool true)); ("timing_spec", (ECall "TimingSpec" []
  [("base_cast_time", (EInt 0)); ("animation_lock", (EInt 650)); ("application_delay", (EInt 1200))])); ("damage_spec", (EDict [((EConst
  "SimConsts.DEFAULT_CONDITION"), (ECall "DamageSpec" [] [("potency", (EPot (EVar "name")))]))])); ("has_aoe", (EBool true)); ("aoe_dropoff", (EFlt 1
  2))])].

(** simulator/game_data/class_skills/healer/sge.py lines 84-94: dyskrasia_ii *)
Definition sge_m4 : pmethod := mkMethod "dyskrasia_ii" []
  [SAsg "name" (EStr "Dyskrasia II"); SRet (ECall "Skill" [] [("name", (EVar "name")); ("is_GCD", (EBool true)); ("timing_spec", (ECall "TimingSpec"
  [] [("base_cast_time", (EInt 0)); ("animation_lock", (EInt 650)); ("application_delay", (EInt 760))])); ("damage_spec", (ECall "DamageSpec" []
  [("potency", (EPot (EVar "name")))])); ("has_aoe", (EBool true))])].

(** simulator/game_data/class_skills/healer/sge.py lines 97-112: pneuma *)
Definition sge_m5 : pmethod := mkMethod "pneuma" []
  [SAsg "name" (EStr "Pneuma"); SRet (ECall "Skill" [] [("name", (EVar "name")); ("is_GCD", (EBool true)); ("timing_spec", (ECall "TimingSpec" []
  [("base_cast_time", (EInt 1500)); ("animation_lock", (EInt 100)); ("application_delay", (EInt 580))])); ("damage_spec", (EDict [((EConst
  "SimConsts.DEFAULT_CONDITION"), (ECall "DamageSpec" [] [("potency", (EPot (EVar "name")))]))])); ("has_aoe", (EBool true)); ("aoe_dropoff", (EFlt 2
  5))])].

(** simulator/game_data/class_skills/healer/sge.py lines 115-125: eukrasia *)
Definition sge_m6 : pmethod := mkMethod "eukrasia" []
  [SAsg "name" (EStr "Eukrasia"); SRet (ECall "Skill" [] [("name", (EVar "name")); ("is_GCD", (EBool true)); ("timing_spec", (ECall "TimingSpec" []
  [("base_cast_time", (EInt 1000)); ("affected_by_speed_stat", (EBool false)); ("affected_by_haste_buffs", (EBool false))]))])].

(** simulator/game_data/class_skills/healer/sge.py lines 128-157: eukrasia_dosis_iii *)
Definition sge_m7 : pmethod := mkMethod "eukrasia_dosis_iii" []
  [SAsg "name" (EStr "Eukrasian Dosis III (dot)"); SAsg "e_dosis_iii" (ECall "Skill" [] [("name", (EVar "name")); ("damage_spec", (ECall "DamageSpec"
  [] [("potency", (EPot (EVar "name"))); ("damage_class", (EConst "DamageClass.MAGICAL_DOT"))]))]); SAsg "name" (EStr "Eukrasian Dosis III"); SRet
  (ECall "Skill" [] [("name", (EVar "name")); ("is_GCD", (EBool true)); ("timing_spec", (ECall "TimingSpec" [] [("base_cast_time", (EInt 0));
  ("animation_lock", (EInt 650)); ("application_delay", (EInt 760)); ("gcd_base_recast_time", (EInt 1500))])); ("follow_up_skills", (ETup [(ECall
  "FollowUp" [] [("skill", (EVar "e_dosis_iii")); ("delay_after_parent_application", (EInt 0)); ("dot_duration", (EBin BMul (EInt 30) (EInt 1000)));
  ("snapshot_buffs_with_parent", (EBool true)); ("snapshot_debuffs_with_parent", (EBool true))])]))])].

(** simulator/game_data/class_skills/healer/sge.py lines 160-192: eukrasian_dyskrasia *)
Definition sge_m8 : pmethod := mkMethod "eukrasian_dyskrasia" []
  [SIf (EVer OLt V70) [SRet ENone] []; SAsg "name" (EStr "Eukrasian Dosis III (dot)"); SAsg "e_dysk" (ECall "Skill" [] [("name", (EVar "name"));
  ("damage_spec", (ECall "DamageSpec" [] [("potency", (EData (EVar "name") (EStr "potency_dysk"))); ("damage_class", (EConst
  "DamageClass.MAGICAL_DOT"))]))]); SAsg "name" (EStr "Eukrasian Dyskrasia"); SRet (ECall "Skill" [] [("name", (EVar "name")); ("is_GCD", (EBool
  true)); ("timing_spec", (ECall "TimingSpec" [] [("base_cast_time", (EInt 0)); ("animation_lock", (EInt 650)); ("application_delay", (EInt 1030));
  ("gcd_base_recast_time", (EInt 1500))])); ("follow_up_skills", (ETup [(ECall "FollowUp" [] [("skill", (EVar "e_dysk"));
  ("delay_after_parent_application", (EInt 0)); ("dot_duration", (EBin BMul (EInt 30) (EInt 1000))); ("snapshot_buffs_with_parent", (EBool true));
  ("snapshot_debuffs_with_parent", (EBool true))])])); ("has_aoe", (EBool true))])].

(** simulator/game_data/class_skills/healer/sge.py lines 195-212: psyche *)
Definition sge_m9 : pmethod := mkMethod "psyche" []
  [SIf (EOr (EVer OLt V70) (ELev OLt K92)) [SRet ENone] []; SAsg "name" (EStr "Psyche"); SRet (ECall "Skill" [] [("name", (EVar "name")); ("is_GCD",
  (EBool false)); ("timing_spec", (ECall "TimingSpec" [] [("base_cast_time", (EInt 0)); ("animation_lock", (EInt 100)); ("application_delay", (EInt
  1100))])); ("damage_spec", (EDict [((EConst "SimConsts.DEFAULT_CONDITION"), (ECall "DamageSpec" [] [("potency", (EPot (EVar "name")))]))]));
  ("has_aoe", (EBool true)); ("aoe_dropoff", (EFlt 1 2))])].

(** simulator/game_data/class_skills/healer/sge.py lines 215-227: swiftcast *)
Definition sge_m10 : pmethod := mkMethod "swiftcast" []
  [SAsg "name" (EStr "Swiftcast"); SRet (ECall "Skill" [] [("name", (EVar "name")); ("is_GCD", (EBool false)); ("timing_spec", (ESelf
  "instant_timing_spec")); ("buff_spec", (ECall "StatusEffectSpec" [] [("flat_cast_time_reduction", (EConst "math.inf")); ("duration", (EBin BMul
  (EInt 10) (EInt 1000))); ("num_uses", (EInt 1)); ("skill_allowlist", (ETup [(EStr "Glare III"); (EStr "Holy III")]))]))])].

(** simulator/game_data/class_skills/healer/sge.py lines 19-21: __init__ after super().__init__ *)
Definition sge_init : list stmt :=
  [SAttr "_job_class" (EStr "SGE")].

(** simulator/game_data/class_skills/healer/sge.py lines 17-227: class SgeSkills; the decorated methods in the order of [dir] *)
Definition sge_class : pclass := mkClass [] sge_init
  [sge_m0; sge_m1; sge_m2; sge_m3; sge_m4; sge_m5; sge_m6; sge_m7; sge_m8; sge_m9; sge_m10]
  ["auto"; "dosis_iii"; "dyskrasia_ii"; "eukrasia"; "eukrasia_dosis_iii"; "eukrasian_dyskrasia"; "phlegma_iii"; "pneuma"; "psyche"; "swiftcast";
  "toxikon_ii"]
  []
  sge_data.
