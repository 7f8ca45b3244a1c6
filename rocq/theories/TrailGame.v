(** * Ticks of the shipped libraries (C92) *)

From Coq Require Import ZArith QArith List String Bool Lia Permutation.
From Verif Require Import Base BaseFacts PyFacts Strings Types Lookup JobResource Stats Library LibraryFacts Events Rotation DamageBuild Damage GameLib GameFacts GameCheck SafeCheck ExampleCheck GamePoints GameLoad GameProps
  SpecHit SpecGame SpecPlay SpecTimeline SpecRun SpecLater SpecReplay SpecShuffle SpecAuto SpecIdle SpecCause SpecGear SpecNeed RunProps SafeDelay SafeFacts SafeGame ShuffleFacts SettingsFacts IdleFacts MoveGame IdleGame BuffGame
  SpecStrike StrikeAuto StrikeGame BuffProps HitProps SpecMean SpecReport SpecAid SpecTrail TrailFacts TickEq.
Import ListNotations.
Open Scope string_scope.
Open Scope Z_scope.

Lemma shipped_tick v lv b fu : create_skill_library v lv = Ok (b_library b) -> built b -> dot_of b fu ->
  In (sk_name (fu_skill fu)) tick_names /\ tick_plain (fu_skill fu) = true.
Proof.
  intros C B (N & s & m & fus & I & G & J). destruct (reach_skills b (built_reachable _ B) s I) as (n & j & Gs).
  pose proof (shipped_part _ _ _ _ _ _ _ C Gs (part_self s)) as K. unfold run_part_ok in K. apply andb_true_iff in K as [_ K]. apply andb_true_iff in K as [K _]. apply andb_true_iff in K as [_ K].
  unfold ticks_ok in K. rewrite forallb_forall in K. specialize (K fu (tspec_declared _ _ _ _ G J)). destruct (fu_dot fu); [|congruence].
  apply andb_true_iff in K as [K K']. split; [apply smem_spec, K|exact K'].
Qed.

Theorem shipped_ticks v lv b : create_skill_library v lv = Ok (b_library b) -> built b -> inert_dots b /\ tells_apart b.
Proof.
  intros C B. split.
  - intros fu D. destruct (shipped_tick v lv b fu C B D) as (N & P). split; [exact (tick_grants _ P)|]. exact (shipped_uncounted v lv b _ C B (or_intror N)).
  - intros s1 s2 m1 m2 l1 l2 f1 f2 H1 H2 G1 G2 I1 I2 N1 N2. apply tick_follow_up.
    + apply (shipped_tick v lv b f1 C B). split; [exact N1|]. exists s1, m1, l1. auto.
    + apply (shipped_tick v lv b f2 C B). split; [exact N2|]. exists s2, m2, l2. auto.
Qed.

Theorem shipped_trailing_keeps_hits v lv st lib snap start w target b0 l b r hits hits' :
  create_skill_library v lv = Ok lib ->
  rb_init st lib snap false false (Some start) w target = Ok b0 -> follow b0 l = Ok b -> no_windows b -> exact_ticks b ->
  get_skill_timing b = Ok r -> Forall orderly (timeline r) -> distinct_places (timeline r) ->
  hits_with st lib snap false true (Some start) w target l = Ok hits ->
  hits_with st lib snap false false (Some start) w target l = Ok hits' ->
  exists own, Permutation (map unnumbered hits') (map unnumbered (own ++ hits)) /\ forall i, In i own -> exists fu, dot_of b fu /\ di_skill i = fu_skill fu.
Proof.
  intros C B0 F W E H O D G G'. pose proof (built_init _ _ _ _ _ _ _ _ _ B0) as Bu. pose proof (follow_built _ _ _ Bu F) as B.
  destruct (init_keeps _ _ _ _ _ _ _ _ _ B0) as (_ & K2 & _). destruct (follow_keeps _ _ _ F) as (_ & L2 & _).
  assert (E2 : b_library b = lib) by congruence. assert (C' := C). rewrite <- E2 in C'. destruct (shipped_ticks v lv b C' B) as (P & T).
  exact (trailing_keeps_hits _ _ _ _ _ _ _ _ _ _ _ _ B0 F W P T E H O D G G').
Qed.
