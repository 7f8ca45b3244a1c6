(** * C77: skills that are not pressed do not matter *)

From Coq Require Import ZArith QArith List String Bool.
From Verif Require Import Base Float Strings Types Lookup Stats Library StatusEffect Events Rotation Damage Fixtures GameLib GameProps SpecMove
  SpecReplay SpecShuffle ShuffleCase SpecNeed NeedFacts NeedCase.
Import ListNotations.
Open Scope string_scope.
Open Scope Z_scope.

(** ** All a rotation reads of its library *)

Theorem C77_timing st lib lib' snap autos trailing start w target calls :
  same_for (st_job st) autos calls lib lib' ->
  timing_with st lib snap autos trailing start w target calls = timing_with st lib' snap autos trailing start w target calls.
Proof. exact (needs_timing st lib lib' snap autos trailing start w target calls). Qed.
Print Assumptions C77_timing.

Theorem C77_report st lib lib' snap autos trailing start w target calls n u u' :
  same_for (st_job st) autos calls lib lib' ->
  report_with st lib snap autos trailing start w target calls n u u' = report_with st lib' snap autos trailing start w target calls n u u'.
Proof. exact (needs_report st lib lib' snap autos trailing start w target calls n u u'). Qed.
Print Assumptions C77_report.

(** ** One more skill *)

Theorem C77_skill own autos calls lib j s lib' :
  j <> own \/ knows lib own -> add_skill (set_current_job_class lib j) s = Ok lib' ->
  (forall i, In i calls -> asked own i <> (sk_name s, j)) -> (autos = true -> j = own -> sk_name s <> "Shot" /\ sk_name s <> "Auto") ->
  same_for own autos calls lib lib'.
Proof. exact (skill_needless own autos calls lib j s lib'). Qed.
Print Assumptions C77_skill.

Example C77_skill_case :
  knows fx_library "test_job" /\ add_skill (set_current_job_class fx_library "test_job") nd_skill = Ok nd_lib
  /\ (forall i, In i nd_calls -> asked "test_job" i <> ("Extra", "test_job"))
  /\ rmap_names (timing_with fx_stats fx_library None true false None (RWTuple []) DEFAULT_TARGET nd_calls)
     = Ok [(-500, "Hit"); (0, "Auto"); (3440, "Auto"); (3940, "Quick")]
  /\ rmap_names (timing_with fx_stats nd_lib None true false None (RWTuple []) DEFAULT_TARGET nd_calls)
     = Ok [(-500, "Hit"); (0, "Auto"); (3440, "Auto"); (3940, "Quick")].
Proof. exact nd_case. Qed.

(** With autos the player's job may not be given a "Shot". *)
Example C77_shot_case :
  add_skill (set_current_job_class fx_library "test_job") nd_shot = Ok nd_shot_lib
  /\ rmap_names (timing_with fx_stats nd_shot_lib None true false None (RWTuple []) DEFAULT_TARGET nd_calls)
     = Ok [(-500, "Hit"); (0, "Shot"); (3440, "Shot"); (3940, "Quick")].
Proof. exact nd_shot_case. Qed.

(** ** Another job *)

Theorem C77_job own autos calls lib cs lib' :
  add_all_skills_from lib cs = Ok lib' -> cs_job cs <> own -> (forall i, In i calls -> snd (asked own i) <> cs_job cs) ->
  same_for own autos calls lib lib'.
Proof. exact (job_needless own autos calls lib cs lib'). Qed.
Print Assumptions C77_job.

Example C77_job_case :
  exists lib', add_all_skills_from fx_library nd_class = Ok lib' /\ cs_job nd_class <> st_job fx_stats
  /\ (forall i, In i nd_calls -> snd (asked (st_job fx_stats) i) <> cs_job nd_class)
  /\ get_skill lib' "Extra" "other_job" = Ok nd_skill
  /\ get_all_combo_breakers lib' "other_job" = Ok [(1, [0])].
Proof. exact nd_job_case. Qed.

(** ** Shipped libraries: only the place of the version among the patches *)

Theorem C77_version v v' lv lib lib' st snap autos trailing start w target calls n u u' :
  (forall x, In x ["6.55"; "7.0"; "7.01"; "7.05"; "7.1"] -> str_ltb x v = str_ltb x v' /\ (v = x <-> v' = x)) ->
  create_skill_library v lv = Ok lib -> create_skill_library v' lv = Ok lib' ->
  timing_with st lib snap autos trailing start w target calls = timing_with st lib' snap autos trailing start w target calls
  /\ report_with st lib snap autos trailing start w target calls n u u' = report_with st lib' snap autos trailing start w target calls n u u'.
Proof.
  intros V C C'. destruct (same_position v v' lv lib lib' V C C') as (S & P & R & B).
  pose proof (same_dicts (st_job st) autos calls lib lib' S P R B) as H.
  exact (conj (C77_timing st lib lib' snap autos trailing start w target calls H) (C77_report st lib lib' snap autos trailing start w target calls n u u' H)).
Qed.
Print Assumptions C77_version.
