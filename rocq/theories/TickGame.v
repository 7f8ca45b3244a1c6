(** * Runs of the shipped libraries: their ticks (C16, C18, C71, C92) *)

From Coq Require Import ZArith QArith List String Bool Lia Permutation.
From Verif Require Import Base BaseFacts Types Lookup Stats Library Events Rotation DamageBuild Damage GameLib GameFacts GameProps SpecHit SpecGame SpecDots SpecPlay SpecTimeline SpecRun SpecLater SpecReplay SpecShuffle
  SpecIdle SpecCause SpecGear SpecNeed RunProps RunFacts SafeFacts SafeGame SettingsFacts IdleFacts StrikeAuto SpecMean SpecReport SpecAid SpecTrail DotFacts LaterFacts GearProps HitProps TrailFacts TrailGame.
Import ListNotations.
Open Scope string_scope.
Open Scope Z_scope.

Theorem shipped_nonneg v lv b : create_skill_library v lv = Ok (b_library b) -> built b -> nonneg_locks b /\ nonneg_delays b /\ nonneg_follow_ups b.
Proof.
  intros C B. assert (K : forall s, In s (skills_of b) -> (forall t, In t (timings_of s) -> sane_timing t) /\ forall fu, In fu (follow_ups_of s) -> 0 <= fu_delay fu).
  { intros s I. destruct (reach_skills b (built_reachable _ B) s I) as (n & j & Gs). destruct (shipped_numbers v lv _ n j s s C Gs (part_self s)) as (T & _ & _ & F). split; assumption. }
  split; [|split].
  - intros s m spec I G. destruct (K s I) as (T & _). apply (T spec), (cspec_declared _ _ _ G).
  - intros s m spec I G. destruct (K s I) as (T & _). apply (T spec), (cspec_declared _ _ _ G).
  - intros s m fus fu I G J. destruct (K s I) as (_ & F). exact (F fu (tspec_declared _ _ _ _ G J)).
Qed.

Theorem shipped_dots_shown v lv b b' : create_skill_library v lv = Ok (b_library b) ->
  built b -> exact_ticks b -> get_skill_timing b = Ok b' ->
  exists slog tlog ticks autos d last first,
    rotation_played b slog tlog
    /\ shows_timeline b b' (flat_map press_entries (slog ++ tlog) ++ ticks ++ autos) d
    /\ (b_fight_start b <> None -> d = 0)
    /\ (b_autos b = false -> autos = [])
    /\ first_ticks (b_snap_dots b) first
    /\ (b_ignore_trailing b = false -> last = None)
    /\ (b_ignore_trailing b = true -> latest (map entry (flat_map press_entries (slog ++ tlog))) last)
    /\ exists ks, effects_of (flat_map press_dots (slog ++ tlog)) ks
          /\ all_ticks first last (flat_map press_dots (slog ++ tlog)) ks ticks.
Proof.
  intros C B E H. destruct (shipped_ticks v lv b C B) as (_ & T). destruct (dots_shown b b' B H) as (slog & tlog & ticks & autos & d & last & first & P & S1 & S2 & S3 & S4 & S5 & S6 & K).
  exists slog, tlog, ticks, autos, d, last, first. repeat (split; [assumption|]). apply K; [exact (log_distinguishable _ _ _ P T)|].
  destruct E as [E|E]; [left; exact E|right]. intros x Hx. apply in_flat_map in Hx as (p & Hp & Hx). apply press_dots_targets in Hx as (_ & -> & _). eapply E; eassumption.
Qed.

Theorem shipped_before v lv b b' r r' T new : create_skill_library v lv = Ok (b_library b) ->
  built b -> distinct_times b -> continued b b' -> b_fight_start b <> None -> b_autos b = false -> b_ignore_trailing b = false -> exact_ticks b' ->
  get_skill_timing b = Ok r -> get_skill_timing b' = Ok r' ->
  more_presses r r' new -> (forall p, In p new -> T <= pr_time p) ->
  Permutation (before T (timeline r)) (before T (timeline r')).
Proof.
  intros C B D Co N A I E H H' M La. pose proof (continued_built b b' Co B) as B'.
  assert (L : b_library b' = b_library b).
  { clear - Co. induction Co as [|b1 b2 name m job n targets Co IH H|b1 b2 t name m job targets Co IH La H]; [reflexivity| |].
    - rewrite <- IH. destruct (add_next_fields _ _ _ _ _ _ _ H) as (? & ? & ? & _ & -> & _). reflexivity.
    - rewrite <- IH. destruct (add_fields _ _ _ _ _ _ _ H) as (? & ? & ? & _ & -> & _). reflexivity. }
  assert (C' := C). rewrite <- L in C'. destruct (shipped_nonneg v lv b' C' B') as (_ & Nd & Nf). destruct (shipped_ticks v lv b' C' B') as (_ & Ta).
  exact (timeline_before b b' r r' T new B D Co N A I Nd Nf Ta E H H' M La).
Qed.

Section Trailing.
Variables (v : string) (lv : Z) (g : gear) (st : stats) (lib : library) (snap : option Q) (start : Z) (w : raw_windows) (target : string) (b0 : builder) (l : list instr) (b r : builder) (hits hits' : list instance).
Hypotheses (C : create_skill_library v lv = Ok lib) (N : gear_nonneg g) (S : stats_of g = Ok st)
  (B0 : rb_init st lib snap false false (Some start) w target = Ok b0) (F : follow b0 l = Ok b) (W : no_windows b) (E : exact_ticks b)
  (H : get_skill_timing b = Ok r) (O : Forall orderly (timeline r)) (D : distinct_places (timeline r))
  (G : hits_with st lib snap false true (Some start) w target l = Ok hits) (G' : hits_with st lib snap false false (Some start) w target l = Ok hits').
Lemma trailing_ticks : inert_dots b /\ tells_apart b.
Proof.
  pose proof (follow_built _ _ _ (built_init _ _ _ _ _ _ _ _ _ B0) F) as B. destruct (init_keeps _ _ _ _ _ _ _ _ _ B0) as (_ & K2 & _). destruct (follow_keeps _ _ _ F) as (_ & L2 & _).
  apply (shipped_ticks v lv b); [|exact B]. rewrite L2, K2. exact C.
Qed.
Theorem shipped_trailing_means n n' u u1 u' u1' rp rp' : fair u -> fair u' -> Forall (unit_rates st) hits' ->
  report_with st lib snap false true (Some start) w target l n u u1 = Ok rp -> report_with st lib snap false false (Some start) w target l n' u' u1' = Ok rp' ->
  (total (rp_expected rp) <= total (rp_expected rp'))%Q.
Proof.
  intros U U' R X X'. destruct trailing_ticks as (P & T).
  exact (trailing_means g st lib snap start w target b0 l b r hits hits' n n' u u1 u' u1' rp rp' (shipped_sane v lv lib C) N S U U' B0 F W P T E H O D G G' R X X').
Qed.
Theorem shipped_trailing_aid b1 : rotation_with st lib snap false true (Some start) w target l = Ok b1 -> exists f, aided_by f b1 b.
Proof. destruct trailing_ticks as (P & T). exact (trailing_aid g st lib snap start w target b0 l b r hits hits' b1 (shipped_sane v lv lib C) N S B0 F W P T E H O D G G'). Qed.
End Trailing.
