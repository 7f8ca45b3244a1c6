(** * simulator/skills/skill_library.py *)

From Coq Require Import ZArith List String Bool.
From Verif Require Import Base Strings Types.
Import ListNotations.
Open Scope string_scope.
Open Scope Z_scope.

(** Lines 5-16: the four dicts keyed by job, the current job (None initially)
    and the version and level. *)
Record library := mkLib {
  lib_skills : dict (dict skill);
  lib_priority : dict (list string);
  lib_resources : dict (dict jr_settings);
  lib_breakers : dict (zdict (list Z));
  lib_current : option string;
  lib_version : string;
  lib_level : Z
}.
Definition lib_init (version : string) (level : Z) : library :=
  mkLib [] [] [] [] None version level.

(** [d[self.__current_job_class]]: None is never a key. *)
Definition at_current {V} (l : library) (d : dict V) : res (string * V) :=
  let* j := of_option KeyError (lib_current l) in
  let* v := of_option KeyError (dget j d) in
  Ok (j, v).

(** Lines 24-30 *)
Definition add_combo_breaker (l : library) (group : Z) (breaker : list Z) : res library :=
  let* (j, d) := at_current l (lib_breakers l) in
  Ok (mkLib (lib_skills l) (lib_priority l) (lib_resources l)
        (dset j (zset group breaker d) (lib_breakers l)) (lib_current l) (lib_version l) (lib_level l)).
(** Lines 32-33 *)
Definition lib_add_resource (l : library) (name : string) (s : jr_settings) : res library :=
  let* (j, d) := at_current l (lib_resources l) in
  Ok (mkLib (lib_skills l) (lib_priority l) (dset j (dset name s d) (lib_resources l))
        (lib_breakers l) (lib_current l) (lib_version l) (lib_level l)).
(** Lines 35-40 *)
Definition get_all_combo_breakers (l : library) (job : string) : res (zdict (list Z)) :=
  of_option KeyError (dget job (lib_breakers l)).
Definition get_all_resource_settings (l : library) (job : string) : res (dict jr_settings) :=
  of_option KeyError (dget job (lib_resources l)).
(** Lines 42-43 *)
Definition has_skill (l : library) (name job : string) : res bool :=
  let* d := of_option KeyError (dget job (lib_skills l)) in
  Ok (dmem name d).
(** Lines 49-50 *)
Definition has_job_class (l : library) (job : string) : bool := dmem job (lib_skills l).
(** Lines 52-56 *)
Definition get_skill (l : library) (name job : string) : res skill :=
  let* d := of_option KeyError (dget job (lib_skills l)) in
  of_option KeyError (dget name d).

(** [if job not in d: d[job] = v] *)
Definition setdefault {V} (k : string) (v : V) (d : dict V) : dict V :=
  if dmem k d then d else dset k v d.
(** Lines 58-71 *)
Definition set_current_job_class (l : library) (job : string) : library :=
  mkLib (setdefault job [] (lib_skills l)) (setdefault job [] (lib_priority l))
    (setdefault job [] (lib_resources l)) (setdefault job [] (lib_breakers l))
    (Some job) (lib_version l) (lib_level l).
(** Lines 73-77.  With no current job Python would store the priority under the
    key None, which no job reads; [Unmodelled] here. *)
Definition set_status_effect_priority (l : library) (p : list string) : res library :=
  let* j := of_option Unmodelled (lib_current l) in
  Ok (mkLib (lib_skills l) (dset j p (lib_priority l)) (lib_resources l) (lib_breakers l)
        (lib_current l) (lib_version l) (lib_level l)).
(** Lines 79-80 *)
Definition get_status_effect_priority (l : library) (job : string) : res (list string) :=
  of_option KeyError (dget job (lib_priority l)).
(** Lines 82-83 *)
Definition get_jobs (l : library) : list string := dkeys (lib_skills l).
(** Lines 85-93 *)
Definition add_skill (l : library) (s : skill) : res library :=
  let* (j, d) := at_current l (lib_skills l) in
  if dmem (sk_name s) d then Err RuntimeError
  else Ok (mkLib (dset j (dset (sk_name s) s d) (lib_skills l)) (lib_priority l) (lib_resources l)
             (lib_breakers l) (lib_current l) (lib_version l) (lib_level l)).

(** What add_all_skills_from reads from a job's skill class
    (simulator/game_data/generic_job_class.py): [cs_skills] is what [get_skills()]
    returns, or the exception it raises. *)
Record class_skills := mkClassSkills {
  cs_job : string;
  cs_priority : option (list string);
  cs_breakers : option (list (Z * list Z));
  cs_skills : res (list skill);
  cs_resources : list (string * jr_settings)
}.

(** Lines 113-117: a ValueError from [get_skills()] is printed and swallowed.
    [add_skill] itself never raises ValueError. *)
Definition add_class_skills (l : library) (r : res (list skill)) : res library :=
  match r with
  | Ok sks => foldM add_skill sks l
  | Err ValueError => Ok l
  | Err e => Err e
  end.

(** Lines 100-120 *)
Definition add_all_skills_from (l : library) (cs : class_skills) : res library :=
  let l0 := set_current_job_class l (cs_job cs) in
  let* l1 := match cs_priority cs with
             | Some p => set_status_effect_priority l0 p
             | None => Ok l0
             end in
  let* l2 := match cs_breakers cs with
             | Some b => foldM (fun l gb => add_combo_breaker l (fst gb) (snd gb)) b l1
             | None => Ok l1
             end in
  let* l3 := add_class_skills l2 (cs_skills cs) in
  foldM (fun l nr => lib_add_resource l (fst nr) (snd nr)) (cs_resources cs) l3.
