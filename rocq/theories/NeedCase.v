(** * Concrete cases for C77 *)

From Coq Require Import ZArith QArith List String Bool.
From Verif Require Import Base Float Strings Types Lookup Stats Library StatusEffect Events Rotation Fixtures Relabel SpecReplay SpecShuffle ShuffleCase SpecNeed.
Import ListNotations.
Open Scope string_scope.
Open Scope Z_scope.

Definition nd_skill : skill := fx_skill "Extra" (COne (fx_damage 900)) (fx_timing 0 650 200) true [].
Definition nd_shot : skill := fx_skill "Shot" (COne (fx_damage_class 90 DC_AUTO)) (fx_timing 0 0 100) false [].
Definition with_skill (s : skill) : library :=
  match add_skill (set_current_job_class fx_library "test_job") s with Ok l => l | Err _ => fx_library end.
Definition nd_lib : library := Eval vm_compute in with_skill nd_skill.
Definition nd_shot_lib : library := Eval vm_compute in with_skill nd_shot.
Definition nd_class : class_skills := mkClassSkills "other_job" None (Some [(1, [0])]) (Ok [nd_skill]) [].
Definition nd_calls : list instr := [NextPress (tap "Hit" None) 1; PressAt (dec 444 100) (tap "Quick" None)].
Definition rmap_names (r : res (queue * list press)) : res (list (Z * string)) :=
  rmap (fun x => map (fun e => (ev_primary e, sk_name (ev_skill e))) (get_q (fst x))) r.

Lemma nd_asked i : In i nd_calls -> asked "test_job" i <> ("Extra", "test_job").
Proof. intros [<-|[<-|[]]]; cbn; discriminate. Qed.
Lemma nd_knows : knows fx_library "test_job".
Proof. repeat split; cbn; auto. Qed.
Lemma nd_case :
  knows fx_library "test_job" /\ add_skill (set_current_job_class fx_library "test_job") nd_skill = Ok nd_lib
  /\ (forall i, In i nd_calls -> asked "test_job" i <> ("Extra", "test_job"))
  /\ rmap_names (timing_with fx_stats fx_library None true false None (RWTuple []) DEFAULT_TARGET nd_calls)
     = Ok [(-500, "Hit"); (0, "Auto"); (3440, "Auto"); (3940, "Quick")]
  /\ rmap_names (timing_with fx_stats nd_lib None true false None (RWTuple []) DEFAULT_TARGET nd_calls)
     = Ok [(-500, "Hit"); (0, "Auto"); (3440, "Auto"); (3940, "Quick")].
Proof. split; [exact nd_knows|]. split; [vm_compute; reflexivity|]. split; [exact nd_asked|]. split; vm_compute; reflexivity. Qed.
Lemma nd_shot_case :
  add_skill (set_current_job_class fx_library "test_job") nd_shot = Ok nd_shot_lib
  /\ rmap_names (timing_with fx_stats nd_shot_lib None true false None (RWTuple []) DEFAULT_TARGET nd_calls)
     = Ok [(-500, "Hit"); (0, "Shot"); (3440, "Shot"); (3940, "Quick")].
Proof. split; vm_compute; reflexivity. Qed.
Lemma nd_job_case :
  exists lib', add_all_skills_from fx_library nd_class = Ok lib' /\ cs_job nd_class <> st_job fx_stats
  /\ (forall i, In i nd_calls -> snd (asked (st_job fx_stats) i) <> cs_job nd_class)
  /\ get_skill lib' "Extra" "other_job" = Ok nd_skill
  /\ get_all_combo_breakers lib' "other_job" = Ok [(1, [0])].
Proof.
  eexists. split; [vm_compute; reflexivity|]. split; [cbn; discriminate|]. split; [intros i [<-|[<-|[]]]; cbn; discriminate|].
  split; vm_compute; reflexivity.
Qed.
