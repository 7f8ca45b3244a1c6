(** * A further attack at a set time, or between two GCDs (C87) *)

From Coq Require Import ZArith QArith List String Bool Lia Permutation Sorted.
From Verif Require Import Base BaseFacts Heap HeapFacts Types Lookup Stats Library Events Rotation DamageBuild SpecQueue SpecGame SpecRun SpecLater SpecReplay SpecShuffle SpecTimeline
  SpecIdle SpecCause SpecGear EventsFacts RunFacts RunProps ReplayFacts ShuffleFacts SettingsFacts IdleFacts BuffTime BuffProps SpecStrike StrikeFacts StrikeAuto.
Import ListNotations.
Open Scope Z_scope.

Lemma run_inv b r : built b -> get_skill_timing b = Ok r -> q_inv (b_queue r).
Proof.
  intros B H. apply run_logs in H; [|apply reachable_dots, built_reachable, B]. destruct H as (slog & tlog & q2 & au & d & X). cbv zeta in X.
  destruct X as (_ & _ & _ & _ & _ & _ & _ & _ & _ & (I & _) & _). exact I.
Qed.

Lemma strike_hits st lib b r b' r' tk s tk1 tk1' q1 q1' o o' :
  built b -> built b' -> b_stats b = st -> b_library b = lib -> b_autos b' = false -> (forall x, In x (skills_of b') -> In x (skills_of b)) ->
  get_skill_timing b = Ok r -> get_skill_timing b' = Ok r' -> at_most_one_more s r' r -> grants_nothing s -> uncounted b (sk_name s) ->
  Forall orderly (timeline r) -> distinct_places (timeline r) -> db_init st lib = Ok tk ->
  get_damage_instances tk (b_queue r') = Ok (tk1, q1, o) -> get_damage_instances tk (b_queue r) = Ok (tk1', q1', o') ->
  exists own, Permutation (map unnumbered o') (map unnumbered (own ++ o)) /\ forall i, In i own -> di_skill i = s.
Proof.
  intros B B' <- <- Au Su H H' ((more & _ & Sk & P) & _) Gn (U1 & U2) O D N A A'.
  unfold timeline in *. rewrite Forall_forall in Sk.
  assert (Am : map anon more = more).
  { assert (X : forall e, In e more -> anon e = e).
    { intros e I. assert (J : In e (map anon (q_heap (b_queue r)))) by (apply (Permutation_in _ (Permutation_sym P)), in_or_app; left; exact I).
      apply in_map_iff in J as (e0 & <- & _). reflexivity. }
    clear - X. induction more as [|e m IH]; [reflexivity|]. cbn [map]. rewrite (X e (or_introl eq_refl)), IH; [reflexivity|]. intros z I. apply X. right. exact I. }
  assert (O2 : Forall orderly (more ++ map anon (q_heap (b_queue r')))) by exact (Permutation_Forall P O).
  apply Forall_app in O2 as (Om & Or). rewrite Forall_map in Or.
  assert (D2 : distinct_places (q_heap (b_queue r'))).
  { unfold distinct_places in *. apply (nodup_right (flat_map places more)). rewrite <- (places_anon (q_heap (b_queue r'))), <- flat_map_app.
    eapply Permutation_NoDup; [apply perm_flat_map, P|]. exact D. }
  destruct (strikes_keep_hits (b_stats b) (b_library b) tk more (b_queue r') (b_queue r) tk1 tk1' q1 q1' o o' (run_inv _ _ B' H') (run_inv _ _ B H)) as (own & Q & W); auto.
  - unfold joined_by. rewrite map_app, Am. exact P.
  - apply Forall_forall. intros e I. rewrite (Sk e I). exact Gn.
  - intros e I. rewrite (Sk e I). split; [|exact U2]. intros e' sp I' Is.
    destruct (timeline_part b' r' (anon e') B' Au H' (in_map anon _ _ I')) as (x & Hx & Pp). exact (U1 x _ sp (Su x Hx) Pp Is).
  - exists own. split; [exact Q|]. intros i Ii. destruct (W i Ii) as (e & Ie & ->). apply Sk, Ie.
Qed.

Lemma fewer_skills b0 l1 i l2 b b' : follow b0 (l1 ++ i :: l2) = Ok b -> follow b0 (l1 ++ l2) = Ok b' -> forall x, In x (skills_of b') -> In x (skills_of b).
Proof.
  intros F F' x. apply follow_spec in F as (_ & ->). apply follow_spec in F' as (_ & ->). unfold skills_of. cbn [b_timed b_sequence left_by].
  rewrite !flat_map_app, !map_app, !in_app_iff. cbn [flat_map]. rewrite !map_app, !in_app_iff. tauto.
Qed.

Theorem timed_keeps_hits st lib snap start w target b0 l1 t c l2 s b r hits hits' :
  rb_init st lib snap false false (Some start) w target = Ok b0 -> follow b0 (l1 ++ PressAt t c :: l2) = Ok b -> distinct_times b ->
  skill_for b0 c = Ok s -> grants_nothing s -> uncounted b (sk_name s) ->
  get_skill_timing b = Ok r -> Forall orderly (timeline r) -> distinct_places (timeline r) ->
  hits_with st lib snap false false (Some start) w target (l1 ++ l2) = Ok hits ->
  hits_with st lib snap false false (Some start) w target (l1 ++ PressAt t c :: l2) = Ok hits' ->
  exists own, Permutation (map unnumbered hits') (map unnumbered (own ++ hits)) /\ forall i, In i own -> di_skill i = s.
Proof.
  intros B0 F Dt Sk Gn U H O D G G'. pose proof (built_init _ _ _ _ _ _ _ _ _ B0) as Bu.
  destruct (init_keeps _ _ _ _ _ _ _ _ _ B0) as (K1 & K2 & _ & K3 & K4 & K5 & _). destruct (follow_keeps _ _ _ F) as (L1 & L2 & L3). pose proof (follow_start _ _ _ F) as L4.
  destruct (timed_fewer b0 l1 t c l2 s b r Bu K3 K4 F Dt Sk Gn) as (b' & r' & F' & H' & M & _); [left; rewrite L4, K5; discriminate|exact U|exact H|].
  unfold hits_with in G, G'. rewrite B0 in G, G'. cbn [bind] in G, G'. rewrite F' in G. rewrite F in G'. cbn [bind] in G, G'. rewrite H' in G. rewrite H in G'. cbn [bind] in G, G'.
  apply bind_ok in G as (tk & N & G). rewrite N in G'. cbn [bind] in G'. apply bind_ok in G as ([[tk1 q1] o] & A & G). injection G as <-. apply bind_ok in G' as ([[tk1' q1'] o'] & A' & G'). injection G' as <-.
  destruct (follow_keeps _ _ _ F') as (L1' & L2' & L3').
  refine (strike_hits st lib b r b' r' tk s tk1 tk1' q1 q1' o o' (follow_built _ _ _ Bu F) (follow_built _ _ _ Bu F') _ _ _ (fewer_skills _ _ _ _ _ _ F F') H H' M Gn U O D N A A'); congruence.
Qed.

Theorem next_keeps_hits st lib snap start w target b0 l1 c l2 s b1 b r hits hits' :
  rb_init st lib snap false false (Some start) w target = Ok b0 -> follow b0 l1 = Ok b1 -> follow b0 (l1 ++ NextPress c 1 :: l2) = Ok b ->
  skill_for b0 c = Ok s -> grants_nothing s -> sk_is_GCD s = false -> uncounted b (sk_name s) -> nonneg_locks b -> fits b (List.length (b_sequence b1)) ->
  get_skill_timing b = Ok r -> Forall orderly (timeline r) -> distinct_places (timeline r) ->
  hits_with st lib snap false false (Some start) w target (l1 ++ l2) = Ok hits ->
  hits_with st lib snap false false (Some start) w target (l1 ++ NextPress c 1 :: l2) = Ok hits' ->
  exists own, Permutation (map unnumbered hits') (map unnumbered (own ++ hits)) /\ forall i, In i own -> di_skill i = s.
Proof.
  intros B0 F1 F Sk Gn Ng U Lk Fi H O D G G'. pose proof (built_init _ _ _ _ _ _ _ _ _ B0) as Bu.
  destruct (init_keeps _ _ _ _ _ _ _ _ _ B0) as (K1 & K2 & _ & K3 & K4 & K5 & _). destruct (follow_keeps _ _ _ F) as (L1 & L2 & L3). pose proof (follow_start _ _ _ F) as L4.
  destruct (next_fewer b0 l1 c l2 s b1 b r Bu K3 K4 F1 F Sk Gn) as (b' & r' & F' & H' & M & _); [left; rewrite L4, K5; discriminate|exact Ng|exact U|exact Lk|exact Fi|exact H|].
  unfold hits_with in G, G'. rewrite B0 in G, G'. cbn [bind] in G, G'. rewrite F' in G. rewrite F in G'. cbn [bind] in G, G'. rewrite H' in G. rewrite H in G'. cbn [bind] in G, G'.
  apply bind_ok in G as (tk & N & G). rewrite N in G'. cbn [bind] in G'. apply bind_ok in G as ([[tk1 q1] o] & A & G). injection G as <-. apply bind_ok in G' as ([[tk1' q1'] o'] & A' & G'). injection G' as <-.
  destruct (follow_keeps _ _ _ F') as (L1' & L2' & L3').
  refine (strike_hits st lib b r b' r' tk s tk1 tk1' q1 q1' o o' (follow_built _ _ _ Bu F) (follow_built _ _ _ Bu F') _ _ _ (fewer_skills _ _ _ _ _ _ F F') H H' M Gn U O D N A A'); congruence.
Qed.
