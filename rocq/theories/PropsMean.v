(** * C91: expected damage never falls with better gear, further buffs or further attacks

    The four outcomes of a hit are weighted with rounded probabilities, so the claim is up
    to one part in 2^50; it is false without that (last theorem).  Rates must be
    probabilities, since the code does not clamp them (C37). *)

From Coq Require Import ZArith QArith Qround List String Bool Permutation.
From Verif Require Import Base Float Types Lookup StatusEffect Stats Library Events Rotation DamageBuild Damage Fixtures Relabel GameLib SpecHit HitOutcomes SpecGame SpecTimeline SpecRun SpecLater SpecReplay SpecShuffle
  SpecIdle SpecCause SpecMove SpecNeed SpecGear SafeCase ShuffleCase HitProps GearCase SpecBuff BuffCase BuffShip SpecStrike SpecMean MeanFacts MeanCase.
Import ListNotations.
Open Scope string_scope.
Open Scope Z_scope.

(** ** One hit *)

(** Better gear, better effects or both, whatever the draws of the ranges. *)
Theorem C91_hit g g' st st' x x' r r' u u' :
  gear_nonneg g -> gear_nonneg g' -> better g g' -> stats_of g = Ok st -> stats_of g' = Ok st' -> sane_hit x -> boosted_hit x x' ->
  unit_rates st x -> unit_rates st' x' -> row_of st x = Ok r -> row_of st' x' = Ok r' -> fair_draws u -> fair_draws u' ->
  no_less (expected_of (row_outcomes r u)) (expected_of (row_outcomes r' u')).
Proof. exact (hit_mean g g' st st' x x' r r' u u'). Qed.
Print Assumptions C91_hit.

(** ** Rotations: better gear, crit and direct hit included *)

Theorem C91_gear g g' st lib snap autos trailing start w target l hits n u u' r :
  sane_library lib -> gear_nonneg g -> better g g' -> same_pace g g' -> stats_of g = Ok st ->
  hits_with st lib snap autos trailing start w target l = Ok hits -> fair u -> (forall i j, drawn (u' i j)) ->
  report_with st lib snap autos trailing start w target l n u u' = Ok r ->
  exists st' r', stats_of g' = Ok st' /\ report_with st' lib snap autos trailing start w target l n u u' = Ok r'
    /\ (Forall (unit_rates st) hits -> Forall (unit_rates st') hits ->
        Forall2 no_less (rp_expected r) (rp_expected r') /\ no_less (total (rp_expected r)) (total (rp_expected r'))).
Proof. exact (gear_means g g' st lib snap autos trailing start w target l hits n u u' r). Qed.
Print Assumptions C91_gear.

Example C91_gear_case : better fx_gear better_gear /\ same_pace fx_gear better_gear /\ fair half_draws
  /\ hits_with fx_stats fx_library None true false None (RWTuple []) DEFAULT_TARGET gr_calls = Ok gr_hits
  /\ Forall (unit_rates fx_stats) gr_hits /\ Forall (unit_rates (gr_stats better_gear)) gr_hits
  /\ rmap (fun r => map Qfloor (rp_expected r)) (gr_report fx_gear) = Ok [18612; 3898; 3719]
  /\ rmap (fun r => map Qfloor (rp_expected r)) (gr_report better_gear) = Ok [19755; 4148; 3950].
Proof. exact mn_case. Qed.

(** ** Further buffs *)

Theorem C91_buffs extra g st lib snap start w target b0 l b r hits hits' n n' u u1 u' u1' rp rp' :
  sane_library lib -> gear_nonneg g -> stats_of g = Ok st -> fair u -> fair u' ->
  rb_init st lib snap false false start w target = Ok b0 -> follow b0 l = Ok b -> with_support extra b -> distinct_times b ->
  get_skill_timing b = Ok r -> Forall orderly (timeline r) -> distinct_places (timeline r) ->
  hits_with st lib snap false false start w target (unsupported extra b0 l) = Ok hits ->
  hits_with st lib snap false false start w target l = Ok hits' ->
  Forall (unit_rates st) hits -> Forall (unit_rates st) hits' ->
  report_with st lib snap false false start w target (unsupported extra b0 l) n u u1 = Ok rp ->
  report_with st lib snap false false start w target l n' u' u1' = Ok rp' ->
  no_less (total (rp_expected rp)) (total (rp_expected rp')).
Proof. exact (support_means extra g st lib snap start w target b0 l b r hits hits' n n' u u1 u' u1' rp rp'). Qed.
Print Assumptions C91_buffs.

(** For the shipped party buffs, at every patch and level. *)
Theorem C91_shipped_buffs v lv extra g st lib snap start w target b0 l b r hits hits' n n' u u1 u' u1' rp rp' :
  create_skill_library v lv = Ok lib -> gear_nonneg g -> stats_of g = Ok st -> fair u -> fair u' -> (forall n, extra n = true -> In n shipped_buffs) ->
  rb_init st lib snap false false start w target = Ok b0 -> follow b0 l = Ok b -> (forall x, In x (b_sequence b) -> extra (sk_name (sq_skill x)) = false) -> distinct_times b ->
  get_skill_timing b = Ok r -> Forall orderly (timeline r) -> distinct_places (timeline r) ->
  hits_with st lib snap false false start w target (unsupported extra b0 l) = Ok hits ->
  hits_with st lib snap false false start w target l = Ok hits' ->
  Forall (unit_rates st) hits -> Forall (unit_rates st) hits' ->
  report_with st lib snap false false start w target (unsupported extra b0 l) n u u1 = Ok rp ->
  report_with st lib snap false false start w target l n' u' u1' = Ok rp' ->
  no_less (total (rp_expected rp)) (total (rp_expected rp')).
Proof. exact (shipped_support_means v lv extra g st lib snap start w target b0 l b r hits hits' n n' u u1 u' u1' rp rp'). Qed.
Print Assumptions C91_shipped_buffs.

Example C91_shipped_case : exists st b0 b r hits hits' rp rp',
  create_skill_library "7.05" 100 = Ok case_lib /\ gear_nonneg (case_gear "WAR") /\ stats_of (case_gear "WAR") = Ok st
  /\ (forall n, bs_extra n = true -> In n shipped_buffs)
  /\ rb_init st case_lib None false false (Some 0) (RWTuple []) "Boss" = Ok b0 /\ follow b0 bs_l = Ok b
  /\ (forall x, In x (b_sequence b) -> bs_extra (sk_name (sq_skill x)) = false) /\ distinct_times b
  /\ get_skill_timing b = Ok r /\ Forall orderly (timeline r) /\ distinct_places (timeline r)
  /\ hits_with st case_lib None false false (Some 0) (RWTuple []) "Boss" (unsupported bs_extra b0 bs_l) = Ok hits
  /\ hits_with st case_lib None false false (Some 0) (RWTuple []) "Boss" bs_l = Ok hits'
  /\ Forall (unit_rates st) hits /\ Forall (unit_rates st) hits'
  /\ report_with st case_lib None false false (Some 0) (RWTuple []) "Boss" (unsupported bs_extra b0 bs_l) 0 half_draws half_draws = Ok rp
  /\ report_with st case_lib None false false (Some 0) (RWTuple []) "Boss" bs_l 0 half_draws half_draws = Ok rp'
  /\ Qfloor (total (rp_expected rp)) = 50580 /\ Qfloor (total (rp_expected rp')) = 56883.
Proof. exact ms_case. Qed.

(** ** Further attacks *)

(** [own] are the hits of the further attacks, as given by the theorems of C87; here the
    bound is exact. *)
Theorem C91_attacks g st lib snap autos trailing start w target l autos' trailing' start' w' target' l' own hits hits' n n' u u1 u' u1' r r' :
  sane_library lib -> gear_nonneg g -> stats_of g = Ok st -> fair u -> fair u' ->
  hits_with st lib snap autos trailing start w target l = Ok hits -> hits_with st lib snap autos' trailing' start' w' target' l' = Ok hits' ->
  Permutation (map unnumbered hits') (map unnumbered (own ++ hits)) -> Forall (unit_rates st) hits' ->
  report_with st lib snap autos trailing start w target l n u u1 = Ok r -> report_with st lib snap autos' trailing' start' w' target' l' n' u' u1' = Ok r' ->
  (total (rp_expected r) <= total (rp_expected r'))%Q.
Proof.
  intros L N S F F' G G' P U H H'.
  exact (proj2 (attack_means g st lib snap autos trailing start w target l autos' trailing' start' w' target' l' own hits hits' n n' u u1 u' u1' r r' L N S F F' G G' P U H H')).
Qed.
Print Assumptions C91_attacks.

(** The shipped autos, at every patch and level, on every job. *)
Theorem C91_shipped_autos v lv g st lib snap trailing start w target b0 l b r hits hits' n n' u u1 u' u1' rp rp' :
  create_skill_library v lv = Ok lib -> gear_nonneg g -> stats_of g = Ok st -> fair u -> fair u' -> (1 <= st_weapon_delay st)%Q ->
  rb_init st lib snap false trailing start w target = Ok b0 -> follow b0 l = Ok b ->
  get_skill_timing b = Ok r -> Forall orderly (timeline r) -> distinct_places (timeline r) ->
  hits_with st lib snap false trailing start w target l = Ok hits ->
  hits_with st lib snap true trailing start w target l = Ok hits' -> Forall (unit_rates st) hits' ->
  report_with st lib snap false trailing start w target l n u u1 = Ok rp -> report_with st lib snap true trailing start w target l n' u' u1' = Ok rp' ->
  (total (rp_expected rp) <= total (rp_expected rp'))%Q.
Proof. exact (shipped_autos_means v lv g st lib snap trailing start w target b0 l b r hits hits' n n' u u1 u' u1' rp rp'). Qed.
Print Assumptions C91_shipped_autos.

(** ** Without the rounding *)

(** Gear whose crits add nothing: more crit lowers the expected damage in its 16th digit. *)
Theorem C91_exact_refuted : exists g g' st st' lib snap autos trailing start w target l hits n u u' r r',
  sane_library lib /\ gear_nonneg g /\ better g g' /\ same_pace g g' /\ stats_of g = Ok st /\ stats_of g' = Ok st'
  /\ hits_with st lib snap autos trailing start w target l = Ok hits /\ fair u /\ (forall i j, drawn (u' i j))
  /\ Forall (unit_rates st) hits /\ Forall (unit_rates st') hits
  /\ report_with st lib snap autos trailing start w target l n u u' = Ok r /\ report_with st' lib snap autos trailing start w target l n u u' = Ok r'
  /\ (total (rp_expected r') < total (rp_expected r))%Q.
Proof. exact exact_refuted. Qed.
Print Assumptions C91_exact_refuted.
