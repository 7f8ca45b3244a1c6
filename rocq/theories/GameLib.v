(** * The shipped skill library.

    simulator/skills/create_skill_library.py, the add_*_skills_to_skill_library.py
    files next to it, simulator/game_data/generic_skills/ and
    simulator/game_data/lb_skills/, on top of the job classes of Data_XXX.v. *)

From Coq Require Import ZArith QArith List String Ascii Bool.
From Verif Require Import Base Strings Types Lookup Library Stats Py.
From Verif Require Import Data_AST Data_BLM Data_BRD Data_DNC Data_DRG Data_DRK Data_GNB
  Data_MCH Data_MNK Data_NIN Data_PCT Data_PLD Data_RDM Data_RPR Data_SAM Data_SCH Data_SGE
  Data_SMN Data_VPR Data_WAR Data_WHM.
Import ListNotations.
Open Scope string_scope.
Open Scope Z_scope.

(** ** Job classes *)

(** The order of create_skill_library.py lines 26-30 and of the five add_*.py
    files; the flag marks the jobs added [if version >= "7.0"]
    (add_caster_skills_to_skill_library.py line 14, add_melee... line 18). *)
Definition job_classes : list (pclass * bool) :=
  [(drk_class, false); (gnb_class, false); (pld_class, false); (war_class, false);
   (ast_class, false); (sch_class, false); (sge_class, false); (whm_class, false);
   (brd_class, false); (dnc_class, false); (mch_class, false);
   (blm_class, false); (rdm_class, false); (smn_class, false); (pct_class, true);
   (drg_class, false); (mnk_class, false); (nin_class, false); (rpr_class, false);
   (sam_class, false); (vpr_class, true)].
Definition loaded_classes (r : Z) : list pclass :=
  map fst (filter (fun cb => implb (snd cb) (vlit_pos V70 <=? r)) job_classes).

(** [XxxSkills(version=version, level=level)] as add_all_skills_from reads it.
    Simplification: an exception of get_resources is raised before one of
    get_skills (no shipped get_resources raises once the object exists). *)
Definition load_class (r : Z) (l : lrank) (c : pclass) : res class_skills :=
  let* self := new_object r l c in
  let* job := lookup_var "self._job_class" self in
  let* j := as_str job in
  let* p := get_priority r l c self in
  let* b := get_breakers r l c self in
  let* rs := get_resources r l c self in
  Ok (mkClassSkills j p b
        (let* sks := get_declared_skills r l c self in Ok (map fst sks)) rs).

(** ** Generic skills, add_generic_skills_to_library.py *)

(** [Skill(name=n, ...)] with the defaults of skill.py lines 21-45 *)
Definition plain_skill (n : string) (dmg : cspec damage_spec) (tm : cspec timing_spec)
    (buff : cspec status_spec) (jr : list jr_spec) (combo : list combo_spec)
    (fus : list follow_up) : skill :=
  mkSkill n dmg tm buff CNone CNone (TTuple jr) (TTuple combo) [] false [] true (TTuple fus) "".

(** [StatusEffectSpec(duration=d, main_stat_add=a, main_stat_mult=m,
    clear_all_status_effects=c)] *)
Definition generic_buff (d : Z) (a m : Q) (c : bool) : status_spec :=
  mkStatus (Fin d) (Fin d) Inf Inf 0 0 1 a m 0 0 (Fin 0) 0 true [] None F_DEFAULT F_DEFAULT
    false false false c.
(** [FollowUp(skill=s, delay_after_parent_application=0)] *)
Definition instant_follow_up (s : skill) : follow_up := mkFollowUp s 0 true true None true.

(** Lines 15-43: the three clearing follow-ups, in the order they are used. *)
Definition clear_follow_ups (name : string) : list follow_up :=
  [instant_follow_up (plain_skill name CNone CNone (COne (generic_buff 0 0 1 true)) [] [] []);
   instant_follow_up (plain_skill name CNone CNone CNone [] [mkCombo [] 0 false true] []);
   instant_follow_up (plain_skill name CNone CNone CNone [mkJr "" (Change 0) Inf false true] [] [])].
(** Lines 46-115 *)
Definition zero_timing : timing_spec := mkTiming 0 2500 0 0 true true.
Definition death_skill : skill :=
  plain_skill "Death" CNone (COne zero_timing) CNone [] [] (clear_follow_ups "Death").
Definition penalty_skill (name : string) (mult : Q) : skill :=
  plain_skill name CNone (COne zero_timing) CNone [] []
    (clear_follow_ups name ++
     [instant_follow_up (plain_skill name CNone CNone (COne (generic_buff 100000 0 mult false)) [] [] [])]).
Definition weakness_skill : skill := penalty_skill "Weakness" (3 # 4).
Definition brink_skill : skill := penalty_skill "Brink of Death" (1 # 2).

(** Lines 118-128.  [f"Wait {i/1000:.2f}s"] for a multiple [i] of 10 in
    0..9990: one digit, a point, two digits. *)
Definition digit (z : Z) : string := String (ascii_of_N (Z.to_N (48 + z))) "".
Definition wait_name (i : Z) : string :=
  "Wait " ++ digit (i / 1000) ++ "." ++ digit ((i / 100) mod 10) ++ digit ((i / 10) mod 10) ++ "s".
Definition wait_skill (i : Z) : skill :=
  plain_skill (wait_name i) CNone (COne (mkTiming 0 2500 i 0 true true)) CNone [] [] [].
Definition wait_skills : list skill := map (fun n => wait_skill (10 * Z.of_nat n)) (seq 0 1000).

(** generic_skills_data.py lines 7-34 *)
Definition generic_data : data_table :=
  [("Grade 8 Tincture",
     [(90, [("animation_lock", [(V655, EInt 1300); (V70, EInt 650)]);
            ("application_delay", [(V655, EInt 890); (V70, EInt 625)])]);
      (100, [("animation_lock", [(V70, EInt 650)]);
             ("application_delay", [(V655, EInt 890); (V70, EInt 625)])])]);
   ("Grade 7 Tincture",
     [(90, [("animation_lock", [(V655, EInt 1300); (V70, EInt 650)]);
            ("application_delay", [(V655, EInt 890); (V70, EInt 625)])]);
      (100, [("animation_lock", [(V70, EInt 650)]); ("application_delay", [(V70, EInt 625)])])]);
   ("Grade 1 Gemdraught",
     [(90, [("animation_lock", [(V70, EInt 650)]); ("application_delay", [(V70, EInt 625)])]);
      (100, [("animation_lock", [(V70, EInt 650)]); ("application_delay", [(V70, EInt 625)])])]);
   ("Grade 2 Gemdraught",
     [(90, [("animation_lock", [(V70, EInt 650)]); ("application_delay", [(V70, EInt 625)])]);
      (100, [("animation_lock", [(V705, EInt 650)]); ("application_delay", [(V70, EInt 625)])])])].

(** [all_generic_skills.get_skill_data(name, param)] then TimingSpec's check that
    it is an int (timing_spec.py lines 13-18). *)
Definition pot_number (r : Z) (l : lrank) (name param : string) : res Z :=
  let* o := find_data r l generic_data name param in
  match o with Some (EInt z) => Ok z | _ => Err AssertionError end.
(** Lines 131-147; [int(29.97 * 1000)] is 29970. *)
Definition pot_skill (r : Z) (l : lrank) (name : string) (main_stat : Z) : res skill :=
  let* lock := pot_number r l name "animation_lock" in
  let* delay := pot_number r l name "application_delay" in
  Ok (plain_skill name CNone (COne (mkTiming 0 2500 lock delay true true))
        (COne (generic_buff 29970 (inject_Z main_stat) 1 false)) [] [] []).
Definition pots (r : Z) : list (string * Z) :=
  (if (vlit_pos V70 <=? r)%Z then [("Grade 1 Gemdraught", 351)] else []) ++
  (if (vlit_pos V705 <=? r)%Z then [("Grade 2 Gemdraught", 392)] else []) ++
  [("Grade 8 Tincture", 262); ("Grade 7 Tincture", 223)].

(** Lines 154-177: what is added to one job, in order. *)
Definition generic_skills (r : Z) (l : lrank) : res (list skill) :=
  let* ps := mapM (fun nm => pot_skill r l (fst nm) (snd nm)) (pots r) in
  Ok (ps ++ [death_skill; weakness_skill; brink_skill] ++ wait_skills)%list.

(** ** Limit breaks, add_lbs_to_skill_library.py *)

Definition lb_skill (n : string) (dmg : bool) (cast lock delay : Z) : skill :=
  plain_skill n
    (if dmg then COne (mkDamage 0 DC_DIRECT F_DEFAULT F_DEFAULT None None 1 None 1) else CNone)
    (COne (mkTiming cast 2500 lock delay true true)) CNone [] [] [].
(** Lines 9-159 *)
Definition tank_lbs := [lb_skill "LB 1" false 0 1930 0; lb_skill "LB 2" false 0 3860 0; lb_skill "LB 3" false 0 3860 0].
Definition healer_lbs := [lb_skill "LB 1" false 2000 2100 0; lb_skill "LB 2" false 2000 5130 0; lb_skill "LB 3" false 2000 8100 0].
Definition melee_lbs := [lb_skill "LB 1" true 2000 3860 0; lb_skill "LB 2" true 3000 3860 0; lb_skill "LB 3" true 4500 3700 2200].
Definition caster_lbs := [lb_skill "LB 1" true 2000 3100 0; lb_skill "LB 2" true 3000 5100 0; lb_skill "LB 3" true 4500 8100 0].
Definition ranged_lbs := [lb_skill "LB 1" true 2000 3100 0; lb_skill "LB 2" true 3000 3100 0; lb_skill "LB 3" true 4500 3700 0].
(** job_class_fns.py lines 89-107 and add_lbs_to_skill_library.py lines 162-181 *)
Definition lbs_of (job : string) : res (list skill) :=
  if smem job ["GNB"; "WAR"; "PLD"; "DRK"] then Ok tank_lbs
  else if smem job ["SCH"; "WHM"; "AST"; "SGE"] then Ok healer_lbs
  else if smem job ["MNK"; "DRG"; "SAM"; "NIN"; "RPR"; "VPR"] then Ok melee_lbs
  else if smem job ["RDM"; "BLM"; "SMN"; "PCT"] then Ok caster_lbs
  else if smem job ["DNC"; "BRD"; "MCH"] then Ok ranged_lbs
  else Err RuntimeError.

(** ** create_skill_library.py *)

(** [set_current_job_class(job)] and add each skill *)
Definition add_to_job (lib : library) (job : string) (sks : res (list skill)) : res library :=
  let* s := sks in
  foldM add_skill s (set_current_job_class lib job).

(** Lines 23-36, for a version at position [r] and a level at position [l].
    The job list is read once per loop ([get_jobs] is not changed by them). *)
Definition create_at (version : string) (level r : Z) (l : lrank) : res library :=
  let* lib := foldM (fun lib c => let* cs := load_class r l c in add_all_skills_from lib cs)
                (loaded_classes r) (lib_init version level) in
  let* lib := foldM (fun lib j => add_to_job lib j (generic_skills r l)) (get_jobs lib) lib in
  foldM (fun lib j => add_to_job lib j (lbs_of j)) (get_jobs lib) lib.

Definition create_skill_library (version : string) (level : Z) : res library :=
  create_at version level (ver_rank version) (lev_rank level).
