(** * Auto attacks of the shipped libraries (C87) *)

From Coq Require Import ZArith QArith List String Bool Lia Permutation.
From Verif Require Import Base BaseFacts PyFacts Strings Types Lookup JobResource Stats Library LibraryFacts Events Rotation DamageBuild Damage GameLib GameFacts GameCheck SafeCheck ExampleCheck GamePoints GameLoad GameProps
  SpecHit SpecGame SpecPlay SpecTimeline SpecRun SpecLater SpecReplay SpecShuffle SpecAuto SpecIdle SpecCause SpecGear RunProps SafeDelay SafeGame ShuffleFacts SettingsFacts IdleFacts MoveGame IdleGame BuffGame SpecStrike StrikeAuto.
Import ListNotations.
Open Scope string_scope.
Open Scope Z_scope.

Lemma no_auto_not l n : no_auto l = true -> In n auto_names \/ In n tick_names -> ~ In n l.
Proof.
  unfold no_auto. rewrite forallb_forall. intros H K I. specialize (H n I). apply andb_true_iff in H as [H H']. apply negb_true_iff in H, H'. rewrite <- not_true_iff_false in H, H'.
  destruct K as [K|K]; [apply H, smem_spec, K|apply H', smem_spec, K].
Qed.
Lemma loaded_no_auto v lv lib j : create_skill_library v lv = Ok lib ->
  forall rs n c a, get_all_resource_settings lib j = Ok rs -> In (n, c) rs -> In a auto_names \/ In a tick_names -> ~ In a (jrs_allowlist c).
Proof.
  intros C. destruct (loaded v lv) as (js & ps & J & P & N & K & _ & M & _ & X).
  { apply loads_iff. exists lib. exact C. }
  rewrite C in X. injection X as ->. destruct (loaded_nodup js ps _ _ N K M J) as [N1 _].
  intros rs n c a E I Ia. unfold get_all_resource_settings, point_lib, lib_of in E. cbn [lib_resources] in E.
  destruct (dget j (map (fun x => (lj_job x, set_resources (cs_resources (fst x)))) js)) as [rs'|] eqn:D; [|discriminate E]. cbn [of_option] in E. injection E as <-.
  apply (dget_jobs (fun x => set_resources (cs_resources (fst x))) js j _ N1) in D as (x & Ix & <- & <-).
  assert (L : loads v lv) by (apply loads_iff; eauto). pose proof (loaded_runs v lv js ps L J P) as R. unfold runs_at in R. apply andb_true_iff in R as [R _].
  rewrite forallb_forall in R. specialize (R x Ix). apply andb_true_iff in R as [_ R]. apply andb_true_iff in R as [_ R].
  unfold unranked in R. apply andb_true_iff in R as [_ R]. rewrite forallb_forall in R. apply set_resources_in in I. specialize (R _ I). cbn [snd] in R.
  apply andb_true_iff in R as [_ R]. exact (no_auto_not _ a R Ia).
Qed.

Lemma auto_plain_sound s : auto_plain s = true -> grants_nothing s /\ forall spec, sk_timing s = COne spec -> 0 <= application_delay spec.
Proof.
  unfold auto_plain. rewrite !andb_true_iff. intros (A & B & C). split.
  - intros m. unfold get_buff_spec, get_debuff_spec, get_follow_up_skills, get_combo_spec, get_job_resource_spec.
    destruct (sk_buff s); try discriminate. destruct (sk_debuff s); try discriminate. destruct (sk_follow_ups s) as [[|]|]; try discriminate.
    destruct (sk_combo s) as [[|]|]; try discriminate. destruct (sk_job_resource s) as [[|]|]; try discriminate. repeat split.
  - intros spec E. rewrite E in C. apply Z.leb_le, C.
Qed.

Lemma shipped_uncounted v lv b n : create_skill_library v lv = Ok (b_library b) -> built b -> In n auto_names \/ In n tick_names -> uncounted b n.
Proof.
  intros C B In'. split.
  - intros s p e I P Ie. assert (Gs : exists n j, get_skill (b_library b) n j = Ok s) by (apply (reach_skills b); [apply built_reachable, B|exact I]).
    destruct Gs as (n' & j & Gs). pose proof (shipped_support_ok _ _ _ _ _ _ p C Gs P) as O. unfold support_ok in O. rewrite !andb_true_iff in O.
    destruct O as (_ & _ & O). rewrite forallb_forall in O. specialize (O e Ie). apply andb_true_iff in O as (_ & U). unfold uses_freeb in U.
    assert (A : match se_allowlist e with Some l => unnamed l && no_auto l | None => false end = true -> exists l, se_allowlist e = Some l /\ ~ In n l).
    { destruct (se_allowlist e) as [l|]; [|discriminate]. intros K. apply andb_true_iff in K as [_ K]. exists l. split; [reflexivity|]. exact (no_auto_not l n K In'). }
    unfold uses_apart. destruct (num_uses e), (max_num_uses e); auto.
  - intros rs k cfg R I. exact (loaded_no_auto _ _ _ _ C rs k cfg n R I In').
Qed.
Theorem shipped_plain_autos v lv b : create_skill_library v lv = Ok (b_library b) -> built b -> plain_autos b.
Proof.
  intros C B au Sk. destruct (auto_from b au Sk) as (n & In' & G). destruct (auto_alone _ _ _ _ _ _ C In' G) as (E & _ & _).
  destruct (auto_plain_sound au (auto_simple _ _ _ _ _ _ C In' G)) as (Gn & Dl). split; [exact Gn|]. split; [|exact Dl]. rewrite E.
  exact (shipped_uncounted v lv b n C B (or_introl In')).
Qed.

Theorem shipped_timely v lv g b : create_skill_library v lv = Ok (b_library b) -> built b -> stats_of g = Ok (b_stats b) -> (1 <= st_weapon_delay (b_stats b))%Q -> timely b.
Proof.
  intros C B Hg W. right. intros evs t au buffs debuffs Ev Ef.
  destruct (auto_effects_bound b evs t au buffs debuffs Ef) as [X Y].
  { intros e I. assert (K : exists n j s, get_skill (b_library b) n j = Ok s /\ part_of (ev_skill e) s).
    { destruct (Ev e I) as [A|(s & R & P)].
      - destruct (auto_from b _ A) as (n & _ & G). exists n, (st_job (b_stats b)), (ev_skill e). split; [exact G|constructor].
      - destruct (reach_skills b (built_reachable _ B) s R) as (n & j & G). eauto. }
    destruct K as (n & j & s & G & P). pose proof (shipped_part _ _ _ _ _ _ _ C G P) as K. unfold run_part_ok in K. rewrite !andb_true_iff, !forallb_forall in K.
    destruct K as [[[[_ K1] K2] _] _]. split; [exact K1|]. intros x J. apply Qeq_bool_iff, K2, J. }
  pose proof (delay_enough _ _ _ W (trait_small _ _ Hg) X Y). lia.
Qed.

Theorem shipped_autos_keep_hits v lv g st lib snap trailing start w target b0 l b r hits hits' :
  create_skill_library v lv = Ok lib -> stats_of g = Ok st -> (1 <= st_weapon_delay st)%Q ->
  rb_init st lib snap false trailing start w target = Ok b0 -> follow b0 l = Ok b ->
  get_skill_timing b = Ok r -> Forall orderly (timeline r) -> distinct_places (timeline r) ->
  hits_with st lib snap false trailing start w target l = Ok hits ->
  hits_with st lib snap true trailing start w target l = Ok hits' ->
  exists own, Permutation (map unnumbered hits') (map unnumbered (own ++ hits)) /\ forall i, In i own -> auto_skill b (di_skill i).
Proof.
  intros C Hg W B0 F H O D G G'. pose proof (built_init _ _ _ _ _ _ _ _ _ B0) as Bu. pose proof (follow_built _ _ _ Bu F) as B.
  destruct (init_keeps _ _ _ _ _ _ _ _ _ B0) as (K1 & K2 & _). destruct (follow_keeps _ _ _ F) as (L1 & L2 & _).
  assert (E1 : b_stats b = st) by congruence. assert (E2 : b_library b = lib) by congruence. rewrite <- E2 in C. rewrite <- E1 in Hg, W.
  exact (autos_keep_hits _ _ _ _ _ _ _ _ _ _ _ _ _ B0 F (shipped_plain_autos v lv b C B) (shipped_timely v lv g b C B Hg W) H O D G G').
Qed.
