(** * C78: better gear never lowers the damage of a rotation *)

From Coq Require Import ZArith QArith Qround List String Bool.
From Verif Require Import Base Types Lookup StatusEffect Stats Library Events Rotation DamageBuild Damage KillTime Fixtures Relabel SpecHit SpecKill KillFacts HitProps
  SpecShuffle SpecMove SpecNeed SpecGame GameLib SpecGear GearFacts GearDamage GearProps GearCase.
Import ListNotations.
Open Scope string_scope.
Open Scope Z_scope.

(** ** Libraries without negative numbers *)

(** The shipped ones are such. *)
Theorem C78_shipped v lv lib : create_skill_library v lv = Ok lib -> sane_library lib.
Proof. exact (shipped_sane v lv lib). Qed.
Print Assumptions C78_shipped.

(** No hit of any rotation has a negative number; this is the condition of C38, C39 and C40. *)
Theorem C78_sane lib st snap autos trailing start w target calls :
  sane_library lib ->
  (forall hits, hits_with st lib snap autos trailing start w target calls = Ok hits -> Forall sane_hit hits)
  /\ forall b, rotation_with st lib snap autos trailing start w target calls = Ok b -> hits_nonneg b.
Proof.
  intros L. exact (conj (hits_sane lib L st snap autos trailing start w target calls) (made_nonneg lib L st snap autos trailing start w target calls)).
Qed.
Print Assumptions C78_sane.

Example C78_gear_case : sane_library fx_library /\ gear_nonneg fx_gear /\ better fx_gear better_gear /\ same_pace fx_gear better_gear
  /\ stats_of fx_gear = Ok fx_stats /\ stats_of better_gear = Ok (gr_stats better_gear).
Proof. exact gr_gear. Qed.

(** ** Timing *)

(** Only the weapon delay, the speed, the job, the version and the level decide when
    things happen and with which effects. *)
Theorem C78_timing g g' st st' lib snap autos trailing start w target calls :
  same_pace g g' -> stats_of g = Ok st -> stats_of g' = Ok st' ->
  timing_with st' lib snap autos trailing start w target calls = timing_with st lib snap autos trailing start w target calls
  /\ hits_with st' lib snap autos trailing start w target calls = hits_with st lib snap autos trailing start w target calls.
Proof. exact (same_timing g g' st st' lib snap autos trailing start w target calls). Qed.
Print Assumptions C78_timing.

(** ** Damage *)

Theorem C78_damage g g' st lib snap autos trailing start w target calls n u u' r :
  sane_library lib -> gear_nonneg g -> better g g' -> same_pace g g' -> stats_of g = Ok st ->
  (forall i j, drawn (u' i j)) -> report_with st lib snap autos trailing start w target calls n u u' = Ok r ->
  exists st' r', stats_of g' = Ok st' /\ report_with st' lib snap autos trailing start w target calls n u u' = Ok r'
    /\ Forall2 Qle (rp_damage r) (rp_damage r') /\ Forall2 dps_le (rp_dps r) (rp_dps r')
    /\ rp_ids r' = rp_ids r /\ rp_targets r' = rp_targets r.
Proof. exact (gear_damage g g' st lib snap autos trailing start w target calls n u u' r). Qed.
Print Assumptions C78_damage.

Example C78_damage_case : rmap (fun r => map Qfloor (rp_damage r)) (gr_report fx_gear) = Ok [20837; 20837]
  /\ rmap (fun r => map Qfloor (rp_damage r)) (gr_report better_gear) = Ok [21886; 21886].
Proof. exact gr_damage. Qed.

(** Nor the expected damage of any hit, for gear with the same crit and direct hit. *)
Theorem C78_expected g g' st lib snap autos trailing start w target calls hits n u u' r :
  sane_library lib -> gear_nonneg g -> better g g' -> same_pace g g' -> stats_of g = Ok st ->
  g_crit g' = g_crit g -> g_dh g' = g_dh g ->
  hits_with st lib snap autos trailing start w target calls = Ok hits -> Forall (unit_rates st) hits ->
  (forall i j, drawn (u' i j)) -> report_with st lib snap autos trailing start w target calls n u u' = Ok r ->
  exists st' r', stats_of g' = Ok st' /\ report_with st' lib snap autos trailing start w target calls n u u' = Ok r'
    /\ Forall2 Qle (rp_expected r) (rp_expected r').
Proof. exact (gear_expected g g' st lib snap autos trailing start w target calls hits n u u' r). Qed.
Print Assumptions C78_expected.

Example C78_expected_case : better fx_gear steady_gear /\ same_pace fx_gear steady_gear
  /\ hits_with fx_stats fx_library None true false None (RWTuple []) DEFAULT_TARGET gr_calls = Ok gr_hits /\ Forall (unit_rates fx_stats) gr_hits
  /\ rmap (fun r => map Qfloor (rp_expected r)) (gr_report fx_gear) = Ok [18612; 3898; 3719]
  /\ rmap (fun r => map Qfloor (rp_expected r)) (gr_report steady_gear) = Ok [19540; 4103; 3906].
Proof. exact gr_expected. Qed.

(** ** Kill times *)

Theorem C78_kill_time hp rots rots' n argsort ks :
  sorts argsort -> Forall2 regeared rots rots' -> Forall (fun bu => draws_ok (snd bu)) rots -> estimate_kill_time hp rots n argsort = Ok ks ->
  exists ks' deaths deaths', estimate_kill_time hp rots' n argsort = Ok ks'
    /\ ks = reported deaths /\ ks' = reported deaths' /\ Forall2 not_earlier deaths' deaths.
Proof. exact (gear_kills hp rots rots' n argsort ks). Qed.
Print Assumptions C78_kill_time.

Example C78_kill_case :
  (exists b b', gr_rotation fx_gear = Ok b /\ gr_rotation better_gear = Ok b'
     /\ Forall2 regeared [(b, kx_draws); (b, kx_draws)] [(b', kx_draws); (b', kx_draws)])
  /\ rmap (map (option_map (fun x => Qfloor (Qmult x 1000)))) (gr_kills 80000 fx_gear) = Ok [Some 4879; None]
  /\ rmap (map (option_map (fun x => Qfloor (Qmult x 1000)))) (gr_kills 80000 better_gear) = Ok [Some 4879; Some 4879].
Proof. exact (conj gr_regeared gr_kill_case). Qed.
