(** * Ignoring trailing ticks changes no other hit (C92) *)

From Coq Require Import ZArith QArith List String Bool Lia Permutation.
From Verif Require Import Base BaseFacts Heap HeapFacts Types Lookup Stats Library Events Rotation DamageBuild SpecQueue SpecGame SpecDots SpecPlay SpecRun SpecLater SpecReplay SpecShuffle SpecTimeline
  SpecIdle SpecCause SpecGear SpecSettings EventsFacts RunFacts DotFacts LaterFacts RunProps ReplayFacts ShuffleFacts SettingsFacts IdleFacts BuffTime BuffProps SpecStrike StrikeFacts StrikeAuto StrikeTimed SpecTrail Damage SpecHit HitProps SpecNeed SpecMove SpecBuff SpecReport ReportFacts GearFacts GearProps SpecMean MeanFacts SpecAid AidFacts.
Import ListNotations.
Open Scope Z_scope.

Lemma latest_of l : exists r, latest l r.
Proof.
  induction l as [|e l (r & IH)]; [exists None; reflexivity|].
  assert (T : exists t, effect_time e t /\ forall t', effect_time e t' -> t' = t).
  { unfold effect_time. destruct (ev_secondary e) as [t|].
    - exists t. split; [left; reflexivity|]. intros t' [H|(H & _)]; congruence.
    - exists (ev_primary e). split; [right; auto|]. intros t' [H|(_ & H)]; congruence. }
  destruct T as (t & Te & Tu). destruct r as [u|]; cbn in IH.
  - destruct IH as ((e1 & I1 & E1) & M). destruct (Z.le_gt_cases t u).
    + exists (Some u). split; [exists e1; split; [right; exact I1|exact E1]|]. intros z t' [<-|Iz] Hz; [apply Tu in Hz; lia|eapply M; eassumption].
    + exists (Some t). split; [exists e; split; [left; reflexivity|exact Te]|]. intros z t' [<-|Iz] Hz; [apply Tu in Hz; lia|specialize (M z t' Iz Hz); lia].
  - subst l. exists (Some t). split; [exists e; split; [left; reflexivity|exact Te]|]. intros z t' [<-|[]] Hz. apply Tu in Hz. lia.
Qed.

Lemma filter_split {A} (f : A -> bool) l : Permutation l (filter (fun x => negb (f x)) l ++ filter f l).
Proof.
  induction l as [|x l IH]; [reflexivity|]. cbn [filter]. destruct (f x); cbn [negb app]; [apply Permutation_cons_app, IH|constructor; exact IH].
Qed.

Lemma ticks_of first last l ks cs c : all_ticks first last l ks cs -> In c cs -> exists k, In k ks /\ ad_skill c = fu_skill (snd k).
Proof.
  induction 1 as [|target fu dur ticks ks cs Hd Ht A IH]; intros I; [destruct I|]. apply in_app_or in I as [I|I].
  - exists (target, fu). split; [left; reflexivity|]. exact (tick_skill _ _ _ _ _ I).
  - destruct (IH I) as (k & Ik & E). exists k. split; [right; exact Ik|exact E].
Qed.

Lemma played_dot b slog tlog x : rotation_played b slog tlog -> In x (flat_map press_dots (slog ++ tlog)) ->
  dot_of b (snd (fst x)) /\ exists p, In p (slog ++ tlog) /\ app_time (snd x) = pl_application p.
Proof.
  intros P I. pose proof (log_dots_dot _ _ I) as N. apply in_flat_map in I as (p & Ip & I). apply press_dots_targets in I as (_ & Ea & fu & If & E).
  split; [|exists p; split; assumption]. split; [exact N|]. rewrite E.
  assert (W : well_played (b_stats b) p) by (destruct P as (_ & _ & _ & W & _); rewrite Forall_forall in W; apply W, Ip). destruct W as (_ & _ & _ & W & _).
  exists (pl_skill p), (pl_modifier p), (pl_follow_ups p). split; [eapply played_skill; eassumption|]. split; assumption.
Qed.

(** ** The timelines *)
Theorem trailing_join b r0 r1 : built b -> b_autos b = false -> b_fight_start b <> None -> no_windows b ->
  tells_apart b -> exact_ticks b ->
  get_skill_timing (set_ignore_trailing_dots b false) = Ok r0 -> get_skill_timing (set_ignore_trailing_dots b true) = Ok r1 ->
  exists late, Permutation (timeline r0) (late ++ timeline r1)
    /\ (forall e, In e late -> exists fu, dot_of b fu /\ ev_skill e = fu_skill fu)
    /\ (forall e t e' t', In e late -> effect_time e t -> In e' (timeline r1) -> effect_time e' t' -> t' < t).
Proof.
  intros B Au Fs W Di Ne H0 H1. destruct (trailing_dropped b r0 r1 B Au Fs W H0 H1) as (slog & tlog & ticks & first & P & X).
  destruct X as ((ks & (_ & Ks) & At) & P0 & P1).
  { exact (log_distinguishable _ _ _ P Di). }
  { destruct Ne as [Ne|Ne]; [left; exact Ne|right]. intros x Ix. destruct (played_dot _ _ _ _ P Ix) as (_ & p & Ip & ->). exact (Ne _ _ _ P Ip). }
  assert (Sk : forall e, In e (map entry ticks) -> exists fu, dot_of b fu /\ ev_skill e = fu_skill fu).
  { intros e I. apply in_map_iff in I as (c & <- & Ic). destruct (ticks_of _ _ _ _ _ _ At Ic) as (k & Ik & E). apply Ks in Ik. apply in_map_iff in Ik as (x & <- & Ix).
    exists (snd (fst x)). split; [exact (proj1 (played_dot _ _ _ _ P Ix))|exact E]. }
  destruct (latest_of (map entry (flat_map press_entries (slog ++ tlog)))) as ([last|] & L).
  - specialize (P1 last L). exists (filter (fun e => negb (not_after last e)) (map entry ticks)). split; [|split].
    + rewrite P0, P1, (filter_split (not_after last) (map entry ticks)) at 1. rewrite !app_assoc. apply Permutation_app_tail, Permutation_app_comm.
    + intros e I. apply filter_In in I as (I & _). apply Sk, I.
    + intros e t e' t' I T I' T'. apply filter_In in I as (_ & I). apply negb_true_iff in I. unfold not_after in I. apply orb_false_iff in I as (Nz & I). apply Z.leb_gt in I.
      assert (Et : last < t) by (destruct T as [T|(T & T2)]; rewrite T in I; [exact I|lia]). clear I.
      apply (Permutation_in _ P1), in_app_or in I' as [I'|I'].
      * destruct L as (_ & L). specialize (L e' t' I' T'). lia.
      * apply filter_In in I' as (_ & I'). unfold not_after in I'. rewrite Nz in I'. cbn [orb] in I'. apply Z.leb_le in I'. destruct T' as [T'|(T' & T2)]; rewrite T' in I'; lia.
  - cbn in L. assert (E : (slog ++ tlog)%list = []).
    { destruct (slog ++ tlog)%list as [|p l]; [reflexivity|discriminate L]. }
    rewrite E in *. assert (Et : ticks = []).
    { destruct ticks as [|c cs]; [reflexivity|]. destruct (ticks_of _ _ _ _ _ _ At (or_introl eq_refl)) as (k & Ik & _). apply Ks in Ik. destruct Ik. }
    subst ticks. exists []. split; [|split; [intros e []|intros e t e' t' []]]. cbn [app] in P0 |- *.
    assert (N0 : timeline r0 = []) by (apply Permutation_sym, Permutation_nil in P0; exact P0).
    assert (No : skills_of b = []).
    { apply app_eq_nil in E as (-> & ->). destruct P as (S1 & _ & (order & Po & _ & T) & _). inversion S1 as [Es|]. inversion T; subst order.
      apply Permutation_sym, Permutation_nil in Po. unfold skills_of. rewrite <- Es, Po. reflexivity. }
    rewrite N0. destruct (timeline r1) as [|e l] eqn:E1; [reflexivity|]. exfalso.
    destruct (timeline_part (set_ignore_trailing_dots b true) r1 e (built_trailing b true B) Au H1) as (s & Hs & _); [rewrite E1; left; reflexivity|].
    change (skills_of (set_ignore_trailing_dots b true)) with (skills_of b) in Hs. rewrite No in Hs. destruct Hs.
Qed.

(** ** The hits *)
Lemma follow_set_trailing x l : forall b, follow (set_ignore_trailing_dots b x) l = let* r := follow b l in Ok (set_ignore_trailing_dots r x).
Proof.
  unfold follow. induction l as [|i l IH]; intros b; cbn [foldM bind]; [reflexivity|].
  destruct (set_any_time b (fun b => set_ignore_trailing_dots b x) (or_intror (ex_intro _ x eq_refl))) as (An & At).
  destruct i as [c n|t c]; cbn [carry_out]; [rewrite An|rewrite At]; unfold then_set; (destruct (_ b _ _ _ _ _) as [b1|]; [cbn [bind]; apply IH|reflexivity]).
Qed.
Lemma follow_trailing l : forall b b', follow b l = Ok b' -> b_ignore_trailing b' = b_ignore_trailing b.
Proof.
  unfold follow. induction l as [|i l IH]; intros b b' H; cbn [foldM] in H; [injection H as <-; auto|].
  apply bind_ok in H as (b1 & A & H). rewrite (IH _ _ H).
  destruct i as [c n|t c]; cbn [carry_out] in A; unfold add_next, add in A; destruct (process_targets b _) as [a al]; apply bind_ok in A as (s & _ & A); injection A as <-; reflexivity.
Qed.

Theorem trailing_keeps_hits st lib snap start w target b0 l b r hits hits' :
  rb_init st lib snap false false (Some start) w target = Ok b0 -> follow b0 l = Ok b -> no_windows b -> inert_dots b -> tells_apart b -> exact_ticks b ->
  get_skill_timing b = Ok r -> Forall orderly (timeline r) -> distinct_places (timeline r) ->
  hits_with st lib snap false true (Some start) w target l = Ok hits ->
  hits_with st lib snap false false (Some start) w target l = Ok hits' ->
  exists own, Permutation (map unnumbered hits') (map unnumbered (own ++ hits)) /\ forall i, In i own -> exists fu, dot_of b fu /\ di_skill i = fu_skill fu.
Proof.
  intros B0 F W Pd Di Ne H O D G G'. unfold hits_with in G, G'.
  rewrite (proj2 (set_as_init _ _ _ _ _ _ _ _ _ B0) true) in G. rewrite B0 in G'. cbn [bind] in G, G'. rewrite follow_set_trailing in G. rewrite F in G, G'. cbn [bind] in G, G'.
  rewrite H in G'. cbn [bind] in G'. apply bind_ok in G as (r1 & H1 & G). apply bind_ok in G as (tk & N & G). rewrite N in G'. cbn [bind] in G'.
  apply bind_ok in G as ([[tk1 q1] o] & A & G). injection G as <-. apply bind_ok in G' as ([[tk1' q1'] o'] & A' & G'). injection G' as <-.
  assert (B : built b) by exact (follow_built _ _ _ (built_init _ _ _ _ _ _ _ _ _ B0) F).
  destruct (init_keeps _ _ _ _ _ _ _ _ _ B0) as (K1 & K2 & _ & K3 & K4 & K5 & _). destruct (follow_keeps _ _ _ F) as (L1 & L2 & L3). pose proof (follow_start _ _ _ F) as L4. pose proof (follow_trailing _ _ _ F) as L5.
  rewrite K1 in L1. rewrite K2 in L2. rewrite K3 in L3. rewrite K5 in L4. rewrite K4 in L5.
  assert (Eb : b = set_ignore_trailing_dots b false) by (destruct b; cbn in *; rewrite L5; reflexivity).
  assert (H0 := H). rewrite Eb in H0.
  destruct (trailing_join b r r1 B L3) as (late & P & Sk & _); [rewrite L4; discriminate|exact W|exact Di|exact Ne|exact H0|exact H1|].
  pose proof (built_trailing b true B) as B1. unfold timeline in *.
  assert (Am : map anon late = late).
  { assert (X : forall e, In e late -> anon e = e).
    { intros e I. assert (J : In e (map anon (q_heap (b_queue r)))) by (apply (Permutation_in _ (Permutation_sym P)), in_or_app; left; exact I).
      apply in_map_iff in J as (e0 & <- & _). reflexivity. }
    clear - X. induction late as [|e m IH]; [reflexivity|]. cbn [map]. rewrite (X e (or_introl eq_refl)), IH; [reflexivity|]. intros z I. apply X. right. exact I. }
  assert (O2 : Forall orderly (late ++ map anon (q_heap (b_queue r1)))) by exact (Permutation_Forall P O).
  apply Forall_app in O2 as (Om & Or). rewrite Forall_map in Or.
  assert (D2 : distinct_places (q_heap (b_queue r1))).
  { unfold distinct_places in *. apply (nodup_right (flat_map places late)). rewrite <- (places_anon (q_heap (b_queue r1))), <- flat_map_app.
    eapply Permutation_NoDup; [apply perm_flat_map, P|]. exact D. }
  destruct (strikes_keep_hits st lib tk late (b_queue r1) (b_queue r) tk1 tk1' q1 q1' o o' (run_inv _ _ B1 H1) (run_inv _ _ B H)) as (own & Q & Wn); auto.
  - unfold joined_by. rewrite map_app, Am. exact P.
  - apply Forall_forall. intros e I. destruct (Sk e I) as (fu & Df & ->). exact (proj1 (Pd fu Df)).
  - intros e I. destruct (Sk e I) as (fu & Df & ->). destruct (Pd fu Df) as (_ & (U1 & U2)). rewrite L1, L2 in U2. split; [|exact U2]. intros e' sp I' Is.
    destruct (timeline_part _ r1 (anon e') B1 L3 H1 (in_map anon _ _ I')) as (x & Hx & Pp). exact (U1 x _ sp Hx Pp Is).
  - exists own. split; [exact Q|]. intros i Ii. destruct (Wn i Ii) as (e & Ie & ->). exact (Sk e Ie).
Qed.

(** ** The damage *)
Theorem trailing_means g st lib snap start w target b0 l b r hits hits' n n' u u1 u' u1' rp rp' :
  sane_library lib -> gear_nonneg g -> stats_of g = Ok st -> fair u -> fair u' ->
  rb_init st lib snap false false (Some start) w target = Ok b0 -> follow b0 l = Ok b -> no_windows b -> inert_dots b -> tells_apart b -> exact_ticks b ->
  get_skill_timing b = Ok r -> Forall orderly (timeline r) -> distinct_places (timeline r) ->
  hits_with st lib snap false true (Some start) w target l = Ok hits ->
  hits_with st lib snap false false (Some start) w target l = Ok hits' -> Forall (unit_rates st) hits' ->
  report_with st lib snap false true (Some start) w target l n u u1 = Ok rp -> report_with st lib snap false false (Some start) w target l n' u' u1' = Ok rp' ->
  (total (rp_expected rp) <= total (rp_expected rp'))%Q.
Proof.
  intros L N S Fu Fu' B0 F W Pd Di Ne H O D G G' U R R'.
  destruct (trailing_keeps_hits st lib snap start w target b0 l b r hits hits' B0 F W Pd Di Ne H O D G G') as (own & P & _).
  exact (proj2 (attack_means g st lib snap false true (Some start) w target l false false (Some start) w target l own hits hits' n n' u u1 u' u1' rp rp' L N S Fu Fu' G G' P U R R')).
Qed.
Theorem trailing_aid g st lib snap start w target b0 l b r hits hits' b1 :
  sane_library lib -> gear_nonneg g -> stats_of g = Ok st ->
  rb_init st lib snap false false (Some start) w target = Ok b0 -> follow b0 l = Ok b -> no_windows b -> inert_dots b -> tells_apart b -> exact_ticks b ->
  get_skill_timing b = Ok r -> Forall orderly (timeline r) -> distinct_places (timeline r) ->
  hits_with st lib snap false true (Some start) w target l = Ok hits ->
  hits_with st lib snap false false (Some start) w target l = Ok hits' ->
  rotation_with st lib snap false true (Some start) w target l = Ok b1 -> exists f, aided_by f b1 b.
Proof.
  intros L N S B0 F W Pd Di Ne H O D G G' B1.
  destruct (trailing_keeps_hits st lib snap start w target b0 l b r hits hits' B0 F W Pd Di Ne H O D G G') as (own & P & _).
  destruct (further_boosted _ _ _ P) as (own' & a' & Q & Fb).
  assert (R : rotation_with st lib snap false false (Some start) w target l = Ok b) by (unfold rotation_with; rewrite B0; exact F).
  exact (aid st lib g snap false true (Some start) w target l b1 hits snap false false (Some start) w target l b hits' own' hits a' L N S B1 G R G' (Permutation_refl _) Q Fb).
Qed.
