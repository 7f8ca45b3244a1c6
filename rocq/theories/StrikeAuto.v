(** * Auto attacks change no other event (C87) *)

From Coq Require Import ZArith QArith List String Bool Lia Permutation Sorted.
From Verif Require Import Base BaseFacts Heap HeapFacts Float Strings Types Lookup StatusEffect JobResource Combo Stats Library Events Rotation SpecQueue SpecPlay
  SpecTimeline SpecDots SpecGame SpecRun SpecLater SpecReplay SpecShuffle SpecAuto SpecIdle CondFacts StatusFacts EventsFacts PlayFacts LogFacts TimelineFacts DotFacts RunFacts RunProps AutoFacts AutoProps
  SafeFacts LaterFacts ReplayFacts ShuffleFacts DamageBuild SpecCause DamageRun SpecGear SpecSettings SettingsFacts IdleFacts SpecStrike StrikeFacts BuffTime BuffProps.
Import ListNotations.
Open Scope Z_scope.

(** ** The shift *)
Lemma hits_later b base au delay last done t hits : autos b base au delay last done t hits ->
  (forall evs t buffs debuffs, (forall e, In e evs -> In e base \/ ev_skill e = au) -> auto_effects b evs t au buffs debuffs -> 0 <= hasted_delay (b_stats b) buffs debuffs) ->
  forall h, In h hits -> t <= hit_time h.
Proof.
  intros A S. induction A as [done t L|done t target buffs debuffs L Ef Nx|done t target buffs debuffs t' l L Ef Nx C IH]; intros h I; [destruct I| |].
  - destruct I as [<-|[]]. reflexivity.
  - destruct I as [<-|I]; [reflexivity|]. specialize (IH h I). apply S in Ef; [|intros e Ie; apply in_app_or in Ie as [Ie|Ie]; [left; exact Ie|right]; apply in_map_iff in Ie as (k & <- & Ie); apply in_map_iff in Ie as (h1 & <- & _); reflexivity]. apply next_auto_le in Nx. cbn in Nx. lia.
Qed.
Lemma autos_move b presses base last0 au hits calls d d' : timely b -> (forall e, In e base -> exists s, In s (skills_of b) /\ part_of (ev_skill e) s) -> (forall spec, sk_timing au = COne spec -> 0 <= application_delay spec) -> autos_delivered b presses base last0 au hits calls ->
  moves (b_fight_start b) base d -> moves (b_fight_start b) (base ++ map entry calls) d' -> d' = d.
Proof.
  intros T Pb T1 (spec & first & last & Sk & Ts & Ed & _ & A & -> & _). unfold moves, timely in *. destruct (b_fight_start b) as [z|]; [congruence|].
  destruct T as [T|T2]; [congruence|].
  assert (Lt : forall h, In h hits -> first <= hit_time h).
  { apply (hits_later _ _ _ _ _ _ _ _ A). intros evs t bu de Ev. apply (T2 evs t au). intros e Ie. destruct (Ev e Ie) as [Ib| ->]; [right; exact (Pb e Ib)|left; exact Sk]. } specialize (T1 spec Ts).
  intros M M'. assert (Df : d = first).
  { apply (moves_fun None base); [exact M|left; exact Ed]. }
  subst d. symmetry. refine (moves_fun None (base ++ map entry (map (hit_call au (application_delay spec)) hits)) first d' _ M'). left.
  destruct Ed as ((e & c & I & Dm & Et) & Mn). split; [exists e, c; split; [apply in_or_app; left; exact I|auto]|].
  intros e1 c1 t1 I1 D1 E1. apply in_app_or in I1 as [I1|I1]; [exact (Mn _ _ _ I1 D1 E1)|].
  apply in_map_iff in I1 as (k & <- & I1). apply in_map_iff in I1 as (h & <- & I1). specialize (Lt h I1).
  unfold effect_time, entry, hit_call, auto_entry in E1. cbn in E1. destruct (Z.eq_dec (hit_time h + application_delay spec) (hit_time h)) as [Z|Z];
    (destruct E1 as [E1|(E1 & E2)]; [try discriminate E1; injection E1; lia|try discriminate E1; lia]).
Qed.

(** ** The timeline *)
Lemma auto_events w au delay d hits evs : downtimed w (map (earlier d) (map entry (map (hit_call au delay) hits))) evs ->
  Forall (fun e => ev_skill e = au /\ anon e = e /\ ev_priority e = 1000 * ev_primary e /\ List.length (ev_targets e) = 1%nat
    /\ ev_modifier e = default_modifier /\ (forall t, ev_secondary e = Some t -> t = ev_primary e + delay)) evs.
Proof.
  intros D. remember (map (earlier d) (map entry (map (hit_call au delay) hits))) as l eqn:El.
  assert (F : Forall (fun e => ev_skill e = au /\ anon e = e /\ ev_priority e = 1000 * ev_primary e /\ List.length (ev_targets e) = 1%nat
    /\ ev_modifier e = default_modifier /\ (forall t, ev_secondary e = Some t -> t = ev_primary e + delay)) l).
  { subst l. apply Forall_forall. intros e I. apply in_map_iff in I as (e0 & <- & I). apply in_map_iff in I as (c & <- & I). apply in_map_iff in I as (h & <- & I).
    split; [reflexivity|]. split; [reflexivity|]. split; [cbn -[Z.mul]; lia|]. split; [reflexivity|]. split; [reflexivity|].
    intros t. cbn -[Z.mul Z.add Z.sub]. destruct (Z.eq_dec (hit_time h + delay) (hit_time h)); cbn -[Z.mul Z.add Z.sub]; intros H; [discriminate H|]. injection H as <-. lia. }
  clear El. induction D as [|e l l' K D IH|e tg l l' K N D IH]; inversion F as [|? ? Fe F']; subst; [constructor|exact (IH F')|]. constructor; [|exact (IH F')].
  destruct Fe as (F1 & F2 & F3 & F4 & F5 & F6). split; [exact F1|]. split; [rewrite <- F2; reflexivity|]. split; [exact F3|]. split; [|split; assumption].
  cbn [with_targets ev_targets]. destruct (ev_targets e) as [|x [|y r]]; try discriminate F4. inversion K as [|? ? ? ? K1|? ? ? ? K1]; subst; inversion K1; subst; [reflexivity|congruence].
Qed.

Theorem autos_join b r r0 : built b -> timely b -> (forall au spec, auto_skill b au -> sk_timing au = COne spec -> 0 <= application_delay spec) ->
  get_skill_timing (set_enable_autos b true) = Ok r -> get_skill_timing (set_enable_autos b false) = Ok r0 ->
  exists more, joined_by more (q_heap (b_queue r0)) (q_heap (b_queue r))
    /\ Forall (fun e => auto_skill b (ev_skill e)) more
    /\ Forall orderly more
    /\ Permutation (get_button_press_timing r0) (get_button_press_timing r)
    /\ q_inv (b_queue r0) /\ q_inv (b_queue r).
Proof.
  intros B T N H H0.
  destruct (built_fresh _ (built_autos b true B)) as (Bd & _).
  assert (Dk : dots_ok (b_dots (set_enable_autos b true))) by (rewrite Bd; intros kv x []).
  destruct (run_logs _ _ H Dk) as (slog & tlog & q2 & autos & d & (S & Tl) & Rp & Q2 & _ & _ & M & (evs & D & P) & _ & Pr & (I & _) & Au).
  destruct (run_logs _ _ H0 Dk) as (slog0 & tlog0 & q20 & autos0 & d0 & (S0 & Tl0) & Rp0 & Q20 & _ & No & M0 & (evs0 & D0 & P0) & _ & Pr0 & (I0 & _) & _).
  specialize (No eq_refl). subst autos0. change (sequence_log (set_enable_autos b false)) with (sequence_log (set_enable_autos b true)) in S0.
  change (timeds_log (set_enable_autos b false)) with (timeds_log (set_enable_autos b true)) in Tl0. rewrite S in S0. injection S0 as <-. rewrite Tl in Tl0. injection Tl0 as <-.
  rewrite Q2 in Q20. injection Q20 as <-. destruct (Au eq_refl) as (au & hits & Del). clear Au.
  cbn [set_enable_autos b_ignore_trailing b_snap_dots b_dots b_fight_start b_stats] in *. rewrite app_nil_r in *.
  set (ticks := all_dot_calls _ _ _) in *. rewrite (app_assoc _ _ autos), (map_app _ _ autos) in M, D. set (base := map entry (flat_map press_entries (slog ++ tlog) ++ ticks)) in *.
  pose proof Del as (spec & first & last & Sk & Ts & _ & _ & _ & Ec & _).
  assert (Pb : forall e, In e base -> exists s, In s (skills_of b) /\ part_of (ev_skill e) s).
  { intros e Ie. apply in_map_iff in Ie as (c & <- & Ic). exact (entry_part _ _ _ _ _ (built_autos b true B) Rp Ic). }
  assert (Ed : d = d0) by exact (autos_move (set_enable_autos b true) _ _ _ _ _ _ _ _ T Pb (fun sp => N au sp Sk) Del M0 M). subst d0 autos.
  rewrite map_app in D. destruct (downtimed_app_inv _ _ _ _ D) as (n1 & n2 & -> & D1 & D2).
  change (windows_of (set_enable_autos b true)) with (windows_of (set_enable_autos b false)) in D1. rewrite (downtimed_fun _ _ _ _ D1 D0) in P.
  pose proof (auto_events _ _ _ _ _ _ D2) as F. exists n2.
  split; [|split; [|split; [|split; [|split; assumption]]]].
  - unfold joined_by, timeline in *. rewrite P, map_app, P0. replace (map anon n2) with n2 by (symmetry; clear - F; induction F as [|e n (_ & E & _) F IH]; cbn [map]; [reflexivity|congruence]).
    apply Permutation_app_comm.
  - eapply Forall_impl; [|exact F]. cbn. intros e (-> & _). exact Sk.
  - specialize (N au spec Sk Ts). eapply Forall_impl; [|exact F]. cbv beta. intros e (_ & _ & Ep & El & _ & Es). split; [lia|]. intros t Et. split; [apply Es in Et; lia|exact El].
  - destruct Pr as (_ & Pr & _). destruct Pr0 as (_ & Pr0 & _). rewrite <- Pr, <- Pr0. reflexivity.
Qed.

Lemma follow_set x l : forall b, follow (set_enable_autos b x) l = let* r := follow b l in Ok (set_enable_autos r x).
Proof.
  unfold follow. induction l as [|i l IH]; intros b; cbn [foldM bind]; [reflexivity|].
  destruct (set_any_time b (fun b => set_enable_autos b x) (or_introl (ex_intro _ x eq_refl))) as (An & At).
  destruct i as [c n|t c]; cbn [carry_out]; [rewrite An|rewrite At]; unfold then_set; (destruct (_ b _ _ _ _ _) as [b1|]; [cbn [bind]; apply IH|reflexivity]).
Qed.

Lemma follow_keeps l : forall b b', follow b l = Ok b' -> b_stats b' = b_stats b /\ b_library b' = b_library b /\ b_autos b' = b_autos b.
Proof.
  unfold follow. induction l as [|i l IH]; intros b b' H; cbn [foldM] in H; [injection H as <-; auto|].
  apply bind_ok in H as (b1 & A & H). destruct (IH _ _ H) as (-> & -> & ->).
  destruct i as [c n|t c]; cbn [carry_out] in A; unfold add_next, add in A; destruct (process_targets b _) as [a al]; apply bind_ok in A as (s & _ & A); injection A as <-; auto.
Qed.

Lemma follow_start l : forall b b', follow b l = Ok b' -> b_fight_start b' = b_fight_start b.
Proof.
  unfold follow. induction l as [|i l IH]; intros b b' H; cbn [foldM] in H; [injection H as <-; auto|].
  apply bind_ok in H as (b1 & A & H). rewrite (IH _ _ H).
  destruct i as [c n|t c]; cbn [carry_out] in A; unfold add_next, add in A; destruct (process_targets b _) as [a al]; apply bind_ok in A as (s & _ & A); injection A as <-; reflexivity.
Qed.

Theorem autos_keep_hits st lib snap trailing start w target b0 l b r hits hits' :
  rb_init st lib snap false trailing start w target = Ok b0 -> follow b0 l = Ok b -> plain_autos b -> timely b ->
  get_skill_timing b = Ok r -> Forall orderly (timeline r) -> distinct_places (timeline r) ->
  hits_with st lib snap false trailing start w target l = Ok hits ->
  hits_with st lib snap true trailing start w target l = Ok hits' ->
  exists own, Permutation (map unnumbered hits') (map unnumbered (own ++ hits)) /\ forall i, In i own -> auto_skill b (di_skill i).
Proof.
  intros B0 F Pa Ti H O D G G'. unfold hits_with in G, G'.
  rewrite (proj1 (set_as_init _ _ _ _ _ _ _ _ _ B0) true) in G'. rewrite B0 in G. cbn [bind] in G, G'. rewrite follow_set in G'. rewrite F in G, G'. cbn [bind] in G, G'.
  rewrite H in G. cbn [bind] in G. apply bind_ok in G' as (r' & H' & G'). apply bind_ok in G as (tk & N & G). rewrite N in G'. cbn [bind] in G'.
  apply bind_ok in G as ([[tk1 q1] o] & A & G). injection G as <-. apply bind_ok in G' as ([[tk1' q1'] o'] & A' & G'). injection G' as <-.
  assert (B : built b) by exact (follow_built _ _ _ (built_init _ _ _ _ _ _ _ _ _ B0) F).
  destruct (init_keeps _ _ _ _ _ _ _ _ _ B0) as (K1 & K2 & _ & K3 & _). destruct (follow_keeps _ _ _ F) as (L1 & L2 & L3).
  rewrite K1 in L1. rewrite K2 in L2. rewrite K3 in L3.
  assert (Eb : b = set_enable_autos b false) by (destruct b; cbn in *; rewrite L3; reflexivity).
  assert (H0 := H). rewrite Eb in H0.
  destruct (autos_join b r' r B Ti (fun au spec Sk => proj2 (proj2 (Pa au Sk)) spec) H' H0) as (more & J & Sk & Om & _ & I & I').
  assert (O' : Forall orderly (q_heap (b_queue r))) by (unfold timeline in O; rewrite Forall_map in O; exact O).
  assert (D' : distinct_places (q_heap (b_queue r))) by (unfold distinct_places, timeline in *; rewrite places_anon in D; exact D).
  rewrite Forall_forall in Sk.
  destruct (strikes_keep_hits st lib tk more (b_queue r) (b_queue r') tk1 tk1' q1 q1' o o' I I' J) as (own & P & W); auto.
  - apply Forall_forall. intros e Ie. apply Pa, Sk, Ie.
  - intros e Ie. destruct (Pa _ (Sk e Ie)) as (_ & (U1 & U2) & _). rewrite L1, L2 in U2. split; [|exact U2].
    intros e' sp Ie' Is. destruct (timeline_part b r (anon e') B L3 H (in_map anon _ _ Ie')) as (s & Hs & Pp). exact (U1 s _ sp Hs Pp Is).
  - exists own. split; [exact P|]. intros i Ii. destruct (W i Ii) as (e & Ie & ->). apply Sk, Ie.
Qed.
