(** * Ignoring trailing ticks changes no other hit (C92) *)

From Coq Require Import ZArith QArith Qround List String Bool Permutation.
From Verif Require Import Base Types Lookup Stats Library Events Rotation DamageBuild Damage Fixtures SpecHit HitProps SpecQueue SpecGame SpecTimeline SpecRun SpecLater SpecReplay SpecShuffle SpecIdle SpecCause
  SpecBuff SpecGear SpecNeed SpecStrike SpecMean SpecReport SpecAid SpecTrail Relabel ReplayCase BuffCase StrikeCase GearCase MeanCase TrailFacts TrailCase StatusEffect GameLib SafeCase TrailGame TrailShip BuffShip.
Import ListNotations.
Open Scope string_scope.
Open Scope Z_scope.

(** On the timeline the setting removes ticks, and only ones later than everything that stays. *)
Theorem C92_timeline b r0 r1 : built b -> b_autos b = false -> b_fight_start b <> None -> no_windows b -> tells_apart b -> exact_ticks b ->
  get_skill_timing (set_ignore_trailing_dots b false) = Ok r0 -> get_skill_timing (set_ignore_trailing_dots b true) = Ok r1 ->
  exists late, Permutation (timeline r0) (late ++ timeline r1)
    /\ (forall e, In e late -> exists fu, dot_of b fu /\ ev_skill e = fu_skill fu)
    /\ (forall e t e' t', In e late -> effect_time e t -> In e' (timeline r1) -> effect_time e' t' -> t' < t).
Proof. exact (trailing_join b r0 r1). Qed.
Print Assumptions C92_timeline.

(** Hence every other hit stays as it is, *)
Theorem C92_hits st lib snap start w target b0 l b r hits hits' :
  rb_init st lib snap false false (Some start) w target = Ok b0 -> follow b0 l = Ok b -> no_windows b -> inert_dots b -> tells_apart b -> exact_ticks b ->
  get_skill_timing b = Ok r -> Forall orderly (timeline r) -> distinct_places (timeline r) ->
  hits_with st lib snap false true (Some start) w target l = Ok hits ->
  hits_with st lib snap false false (Some start) w target l = Ok hits' ->
  exists own, Permutation (map unnumbered hits') (map unnumbered (own ++ hits)) /\ forall i, In i own -> exists fu, dot_of b fu /\ di_skill i = fu_skill fu.
Proof. exact (trailing_keeps_hits st lib snap start w target b0 l b r hits hits'). Qed.
Print Assumptions C92_hits.

(** the expected damage never rises, *)
Theorem C92_mean g st lib snap start w target b0 l b r hits hits' n n' u u1 u' u1' rp rp' :
  sane_library lib -> gear_nonneg g -> stats_of g = Ok st -> fair u -> fair u' ->
  rb_init st lib snap false false (Some start) w target = Ok b0 -> follow b0 l = Ok b -> no_windows b -> inert_dots b -> tells_apart b -> exact_ticks b ->
  get_skill_timing b = Ok r -> Forall orderly (timeline r) -> distinct_places (timeline r) ->
  hits_with st lib snap false true (Some start) w target l = Ok hits ->
  hits_with st lib snap false false (Some start) w target l = Ok hits' -> Forall (unit_rates st) hits' ->
  report_with st lib snap false true (Some start) w target l n u u1 = Ok rp -> report_with st lib snap false false (Some start) w target l n' u' u1' = Ok rp' ->
  (total (rp_expected rp) <= total (rp_expected rp'))%Q.
Proof. exact (trailing_means g st lib snap start w target b0 l b r hits hits' n n' u u1 u' u1' rp rp'). Qed.
Print Assumptions C92_mean.

(** and with the ticks nothing is killed later: they aid the rotation as in C89. *)
Theorem C92_kills g st lib snap start w target b0 l b r hits hits' b1 :
  sane_library lib -> gear_nonneg g -> stats_of g = Ok st ->
  rb_init st lib snap false false (Some start) w target = Ok b0 -> follow b0 l = Ok b -> no_windows b -> inert_dots b -> tells_apart b -> exact_ticks b ->
  get_skill_timing b = Ok r -> Forall orderly (timeline r) -> distinct_places (timeline r) ->
  hits_with st lib snap false true (Some start) w target l = Ok hits ->
  hits_with st lib snap false false (Some start) w target l = Ok hits' ->
  rotation_with st lib snap false true (Some start) w target l = Ok b1 -> exists f, aided_by f b1 b.
Proof. exact (trailing_aid g st lib snap start w target b0 l b r hits hits' b1). Qed.
Print Assumptions C92_kills.

(** Hits under a buff and a debuff, and damage over time with three ticks after the last of them. *)
Example C92_case : sane_library fx_library /\ gear_nonneg fx_gear /\ stats_of fx_gear = Ok fx_stats /\ fair half_draws
  /\ rb_init fx_stats fx_library None false false (Some 0) (RWTuple []) DEFAULT_TARGET = Ok sa_b0 /\ follow sa_b0 bf_l = Ok sa_b
  /\ no_windows sa_b /\ inert_dots sa_b /\ tells_apart sa_b /\ exact_ticks sa_b
  /\ get_skill_timing sa_b = Ok sa_r /\ Forall orderly (timeline sa_r) /\ distinct_places (timeline sa_r)
  /\ hits_with fx_stats fx_library None false true (Some 0) (RWTuple []) DEFAULT_TARGET bf_l = Ok tl_fewer
  /\ hits_with fx_stats fx_library None false false (Some 0) (RWTuple []) DEFAULT_TARGET bf_l = Ok sa_hits
  /\ map bonuses tl_fewer = [(500, "Hit", 1%Q); (900, "Burn (tick)", boosted); (900, "Burn", boosted); (2100, "Quick", boosted); (2940, "Hit", boosted);
       (3900, "Burn (tick)", boosted); (6200, "Quick", weakened)]
  /\ map bonuses sa_hits = (map bonuses tl_fewer ++ [(6900, "Burn (tick)", boosted); (9900, "Burn (tick)", boosted); (12900, "Burn (tick)", boosted)])%list
  /\ Forall (unit_rates fx_stats) sa_hits
  /\ rmap (fun r => Qfloor (total (rp_expected r))) (report_with fx_stats fx_library None false true (Some 0) (RWTuple []) DEFAULT_TARGET bf_l 0 half_draws half_draws) = Ok 54401
  /\ rmap (fun r => Qfloor (total (rp_expected r))) (report_with fx_stats fx_library None false false (Some 0) (RWTuple []) DEFAULT_TARGET bf_l 0 half_draws half_draws) = Ok 60097.
Proof. exact tl_case. Qed.

(** In the shipped libraries every tick is like this, at every patch and level, on every job, *)
Theorem C92_shipped_ticks v lv b : create_skill_library v lv = Ok (b_library b) -> built b -> inert_dots b /\ tells_apart b.
Proof. exact (shipped_ticks v lv b). Qed.
Print Assumptions C92_shipped_ticks.

(** so that the setting changes no other hit. *)
Theorem C92_shipped v lv st lib snap start w target b0 l b r hits hits' :
  create_skill_library v lv = Ok lib ->
  rb_init st lib snap false false (Some start) w target = Ok b0 -> follow b0 l = Ok b -> no_windows b -> exact_ticks b ->
  get_skill_timing b = Ok r -> Forall orderly (timeline r) -> distinct_places (timeline r) ->
  hits_with st lib snap false true (Some start) w target l = Ok hits ->
  hits_with st lib snap false false (Some start) w target l = Ok hits' ->
  exists own, Permutation (map unnumbered hits') (map unnumbered (own ++ hits)) /\ forall i, In i own -> exists fu, dot_of b fu /\ di_skill i = fu_skill fu.
Proof. exact (shipped_trailing_keeps_hits v lv st lib snap start w target b0 l b r hits hits'). Qed.
Print Assumptions C92_shipped.

(** A Warrior's hits, and a Scholar's Biolysis under Chain Stratagem that outlasts them: the time, skill, damage bonus and bonus crit rate of each hit. *)
Example C92_shipped_case : exists st b0 b r hits hits',
  create_skill_library "7.05" 100 = Ok case_lib
  /\ rb_init st case_lib None false false (Some 0) (RWTuple []) "Boss" = Ok b0 /\ follow b0 ts_l = Ok b /\ no_windows b /\ exact_ticks b
  /\ get_skill_timing b = Ok r /\ Forall orderly (timeline r) /\ distinct_places (timeline r)
  /\ hits_with st case_lib None false true (Some 0) (RWTuple []) "Boss" ts_l = Ok hits
  /\ hits_with st case_lib None false false (Some 0) (RWTuple []) "Boss" ts_l = Ok hits'
  /\ map shown hits = ts_fewer /\ map shown hits' = (ts_fewer ++ ts_late)%list.
Proof. exact ts_case. Qed.

(** Buffs for a number of uses do count ticks, and as the ticks are snapshot: then the
    setting changes hits that come before any trailing tick. *)
Theorem C92_counted_refuted :
  ~ (forall st lib snap start w target b0 l b r hits hits',
      rb_init st lib snap false false (Some start) w target = Ok b0 -> follow b0 l = Ok b -> no_windows b ->
      (forall fu, dot_of b fu -> grants_nothing (fu_skill fu)) -> tells_apart b -> exact_ticks b ->
      get_skill_timing b = Ok r -> Forall orderly (timeline r) -> distinct_places (timeline r) ->
      hits_with st lib snap false true (Some start) w target l = Ok hits ->
      hits_with st lib snap false false (Some start) w target l = Ok hits' ->
      exists own, Permutation (map unnumbered hits') (map unnumbered (own ++ hits))).
Proof. exact counted_ticks_refuted. Qed.
Print Assumptions C92_counted_refuted.
