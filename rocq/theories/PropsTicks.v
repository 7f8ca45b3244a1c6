(** * Ticks in the shipped libraries (C16, C71, C92) *)

From Coq Require Import ZArith QArith Qround List String Bool Permutation.
From Verif Require Import Base Types Lookup Stats Library Events Rotation DamageBuild Damage GameLib SpecHit HitProps SpecGame SpecDots SpecPlay SpecTimeline SpecRun SpecLater SpecReplay SpecShuffle SpecIdle SpecCause SpecGear SpecNeed
  SpecMean SpecReport SpecAid SpecTrail LaterCase SafeCase BuffShip TrailShip TickGame TickCase HitProps GearCase MeanCase.
Import ListNotations.
Open Scope string_scope.
Open Scope Z_scope.

(** ** C16: the ticks of each application, for every supported patch and level *)

Theorem C16_shipped v lv b b' : create_skill_library v lv = Ok (b_library b) ->
  built b -> exact_ticks b -> get_skill_timing b = Ok b' ->
  exists slog tlog ticks autos d last first,
    rotation_played b slog tlog
    /\ shows_timeline b b' (flat_map press_entries (slog ++ tlog) ++ ticks ++ autos) d
    /\ (b_fight_start b <> None -> d = 0)
    /\ (b_autos b = false -> autos = [])
    /\ first_ticks (b_snap_dots b) first
    /\ (b_ignore_trailing b = false -> last = None)
    /\ (b_ignore_trailing b = true -> latest (map entry (flat_map press_entries (slog ++ tlog))) last)
    /\ exists ks, SpecDots.effects_of (flat_map press_dots (slog ++ tlog)) ks
          /\ all_ticks first last (flat_map press_dots (slog ++ tlog)) ks ticks.
Proof. exact (shipped_dots_shown v lv b b'). Qed.
Print Assumptions C16_shipped.

(** ** C71: before the first further press, the timelines agree completely *)

Theorem C71_shipped v lv b b' r r' T new : create_skill_library v lv = Ok (b_library b) ->
  built b -> distinct_times b -> continued b b' -> b_fight_start b <> None -> b_autos b = false -> b_ignore_trailing b = false -> exact_ticks b' ->
  get_skill_timing b = Ok r -> get_skill_timing b' = Ok r' ->
  more_presses r r' new -> (forall p, In p new -> T <= pr_time p) ->
  Permutation (before T (timeline r)) (before T (timeline r')).
Proof. exact (shipped_before v lv b b' r r' T new). Qed.
Print Assumptions C71_shipped.

(** Biolysis, applied again at 10 s: the ticks before then stay, the later ones give way. *)
Example C71_shipped_case : exists st b0 b b' r r',
  create_skill_library "7.05" 100 = Ok case_lib /\ rb_init st case_lib None false false (Some 0) (RWTuple []) "Boss" = Ok b0 /\ follow b0 tk_l = Ok b
  /\ b_library b = case_lib /\ built b /\ distinct_times b /\ continued b b' /\ b_fight_start b <> None /\ b_autos b = false /\ b_ignore_trailing b = false /\ exact_ticks b /\ exact_ticks b'
  /\ get_skill_timing b = Ok r /\ get_skill_timing b' = Ok r' /\ more_presses r r' tk_further /\ (forall p, In p tk_further -> 10000 <= pr_time p)
  /\ event_times (timeline r) = (tk_before ++ tk_alone)%list /\ event_times (timeline r') = (tk_before ++ tk_renewed)%list.
Proof. exact tk_case. Qed.

(** ** C92: with trailing ticks ignored, the expected damage never rises and nothing is killed earlier *)

Theorem C92_shipped_mean v lv g st lib snap start w target b0 l b r hits hits' n n' u u1 u' u1' rp rp' :
  create_skill_library v lv = Ok lib -> gear_nonneg g -> stats_of g = Ok st ->
  rb_init st lib snap false false (Some start) w target = Ok b0 -> follow b0 l = Ok b -> no_windows b -> exact_ticks b ->
  get_skill_timing b = Ok r -> Forall orderly (timeline r) -> distinct_places (timeline r) ->
  hits_with st lib snap false true (Some start) w target l = Ok hits ->
  hits_with st lib snap false false (Some start) w target l = Ok hits' ->
  fair u -> fair u' -> Forall (unit_rates st) hits' ->
  report_with st lib snap false true (Some start) w target l n u u1 = Ok rp -> report_with st lib snap false false (Some start) w target l n' u' u1' = Ok rp' ->
  (total (rp_expected rp) <= total (rp_expected rp'))%Q.
Proof. intros C N S B0 F W E H O D G G'. exact (shipped_trailing_means v lv g st lib snap start w target b0 l b r hits hits' C N S B0 F W E H O D G G' n n' u u1 u' u1' rp rp'). Qed.
Print Assumptions C92_shipped_mean.

Theorem C92_shipped_kills v lv g st lib snap start w target b0 l b r hits hits' b1 :
  create_skill_library v lv = Ok lib -> gear_nonneg g -> stats_of g = Ok st ->
  rb_init st lib snap false false (Some start) w target = Ok b0 -> follow b0 l = Ok b -> no_windows b -> exact_ticks b ->
  get_skill_timing b = Ok r -> Forall orderly (timeline r) -> distinct_places (timeline r) ->
  hits_with st lib snap false true (Some start) w target l = Ok hits ->
  hits_with st lib snap false false (Some start) w target l = Ok hits' ->
  rotation_with st lib snap false true (Some start) w target l = Ok b1 -> exists f, aided_by f b1 b.
Proof. intros C N S B0 F W E H O D G G'. exact (shipped_trailing_aid v lv g st lib snap start w target b0 l b r hits hits' C N S B0 F W E H O D G G' b1). Qed.
Print Assumptions C92_shipped_kills.

(** The rotation of [C92_shipped_case]. *)
Example C92_shipped_mean_case : exists st b0 b r hits hits' b1 rp rp',
  create_skill_library "7.05" 100 = Ok case_lib /\ gear_nonneg (case_gear "WAR") /\ stats_of (case_gear "WAR") = Ok st
  /\ rb_init st case_lib None false false (Some 0) (RWTuple []) "Boss" = Ok b0 /\ follow b0 ts_l = Ok b /\ no_windows b /\ exact_ticks b
  /\ get_skill_timing b = Ok r /\ Forall orderly (timeline r) /\ distinct_places (timeline r)
  /\ hits_with st case_lib None false true (Some 0) (RWTuple []) "Boss" ts_l = Ok hits
  /\ hits_with st case_lib None false false (Some 0) (RWTuple []) "Boss" ts_l = Ok hits'
  /\ rotation_with st case_lib None false true (Some 0) (RWTuple []) "Boss" ts_l = Ok b1 /\ fair half_draws /\ Forall (unit_rates st) hits'
  /\ report_with st case_lib None false true (Some 0) (RWTuple []) "Boss" ts_l 0 half_draws half_draws = Ok rp
  /\ report_with st case_lib None false false (Some 0) (RWTuple []) "Boss" ts_l 0 half_draws half_draws = Ok rp'
  /\ Qfloor (total (rp_expected rp)) = 38258 /\ Qfloor (total (rp_expected rp')) = 43311.
Proof. exact tr_case. Qed.
