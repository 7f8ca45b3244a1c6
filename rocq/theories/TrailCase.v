(** * Rotations for C92 *)

From Coq Require Import ZArith QArith Qround List String Bool Lia Permutation.
From Verif Require Import Base BaseFacts Float Strings Types Lookup Stats Library StatusEffect Events Rotation DamageBuild Damage Fixtures SpecHit HitProps SpecGame SpecDots SpecPlay SpecTimeline SpecRun SpecLater
  SpecReplay SpecShuffle SpecAuto SpecIdle SpecCause SpecGear SpecNeed GearCase SettingsFacts RunCounter RunProps ReplayCase ShuffleCase CauseCase IdleCase SpecBuff BuffCase SpecStrike StrikeCase SpecMean MeanCase Relabel SpecTrail.
Import ListNotations.
Open Scope string_scope.
Open Scope Z_scope.

Notation tl_hits lib ig l := (hits_with fx_stats lib None false ig (Some 0) (RWTuple []) DEFAULT_TARGET l).

(** *** Buffed hits and damage over time whose last ticks come after everything else. *)
Definition tl_fewer : list instance := hits_of (tl_hits fx_library true bf_l).
Lemma tl_ok : tl_hits fx_library true bf_l = Ok tl_fewer.
Proof. vm_compute. reflexivity. Qed.
Lemma no_tuple_windows b : b_windows b = WTuple [] -> no_windows b.
Proof. intros E t. unfold windows_of. rewrite E. destruct (in_dec _ _ _); reflexivity. Qed.
Lemma tl_windows : no_windows sa_b.
Proof. apply no_tuple_windows. vm_compute. reflexivity. Qed.
Lemma burns b l : skills_of b = l -> Forall (fun s => sk_follow_ups s = TTuple [] \/ s = fx_burn) l ->
  forall s m fus fu, In s (skills_of b) -> get_follow_up_skills s m = Ok fus -> In fu fus -> fu = fx_burn_fu.
Proof.
  intros -> F s m fus fu I G J. rewrite Forall_forall in F. destruct (F s I) as [E| ->].
  - unfold get_follow_up_skills in G. rewrite E in G. injection G as <-. destruct J.
  - injection G as <-. destruct J as [<-|[]]. reflexivity.
Qed.
Lemma tl_burns : forall s m fus fu, In s (skills_of sa_b) -> get_follow_up_skills s m = Ok fus -> In fu fus -> fu = fx_burn_fu.
Proof. apply (burns _ _ (proj1 sa_skills)). repeat constructor; first [left; reflexivity|right; reflexivity]. Qed.
Lemma burns_apart b : (forall s m fus fu, In s (skills_of b) -> get_follow_up_skills s m = Ok fus -> In fu fus -> fu = fx_burn_fu) -> tells_apart b.
Proof.
  intros F s1 s2 m1 m2 l1 l2 f1 f2 H1 H2 G1 G2 I1 I2 _ _. rewrite (F _ _ _ _ H1 G1 I1), (F _ _ _ _ H2 G2 I2).
  split; [reflexivity | intros _; vm_compute; reflexivity].
Qed.
Lemma tl_plain : inert_dots sa_b.
Proof. intros fu (_ & s & m & fus & I & G & J). rewrite (tl_burns s m fus fu I G J). split; [intros n; repeat split|apply sa_uncounted]. Qed.
Lemma tl_dots : tells_apart sa_b /\ exact_ticks sa_b.
Proof. split; [exact (burns_apart _ tl_burns)|left; vm_compute; reflexivity]. Qed.
Lemma tl_shown : map bonuses tl_fewer = [(500, "Hit", 1%Q); (900, "Burn (tick)", boosted); (900, "Burn", boosted); (2100, "Quick", boosted); (2940, "Hit", boosted);
    (3900, "Burn (tick)", boosted); (6200, "Quick", weakened)].
Proof. vm_compute. reflexivity. Qed.
Notation tl_report ig := (report_with fx_stats fx_library None false ig (Some 0) (RWTuple []) DEFAULT_TARGET bf_l 0 half_draws half_draws).
Lemma tl_expected : Forall (unit_rates fx_stats) sa_hits
  /\ rmap (fun r => Qfloor (total (rp_expected r))) (tl_report true) = Ok 54401
  /\ rmap (fun r => Qfloor (total (rp_expected r))) (tl_report false) = Ok 60097.
Proof. split; [apply rates_all; vm_compute; reflexivity|]. split; vm_compute; reflexivity. Qed.

Lemma tl_case : sane_library fx_library /\ gear_nonneg fx_gear /\ stats_of fx_gear = Ok fx_stats /\ fair half_draws
  /\ rb_init fx_stats fx_library None false false (Some 0) (RWTuple []) DEFAULT_TARGET = Ok sa_b0 /\ follow sa_b0 bf_l = Ok sa_b
  /\ no_windows sa_b /\ inert_dots sa_b /\ tells_apart sa_b /\ exact_ticks sa_b
  /\ get_skill_timing sa_b = Ok sa_r /\ Forall orderly (timeline sa_r) /\ distinct_places (timeline sa_r)
  /\ hits_with fx_stats fx_library None false true (Some 0) (RWTuple []) DEFAULT_TARGET bf_l = Ok tl_fewer
  /\ hits_with fx_stats fx_library None false false (Some 0) (RWTuple []) DEFAULT_TARGET bf_l = Ok sa_hits
  /\ map bonuses tl_fewer = [(500, "Hit", 1%Q); (900, "Burn (tick)", boosted); (900, "Burn", boosted); (2100, "Quick", boosted); (2940, "Hit", boosted);
       (3900, "Burn (tick)", boosted); (6200, "Quick", weakened)]
  /\ map bonuses sa_hits = (map bonuses tl_fewer ++ [(6900, "Burn (tick)", boosted); (9900, "Burn (tick)", boosted); (12900, "Burn (tick)", boosted)])%list
  /\ Forall (unit_rates fx_stats) sa_hits
  /\ rmap (fun r => Qfloor (total (rp_expected r))) (report_with fx_stats fx_library None false true (Some 0) (RWTuple []) DEFAULT_TARGET bf_l 0 half_draws half_draws) = Ok 54401
  /\ rmap (fun r => Qfloor (total (rp_expected r))) (report_with fx_stats fx_library None false false (Some 0) (RWTuple []) DEFAULT_TARGET bf_l 0 half_draws half_draws) = Ok 60097.
Proof.
  destruct gr_gear as (L & N & _ & _ & S & _). destruct sa_ok as (B0 & F & R & H & _). destruct tl_dots as (T & E). destruct sa_tidy as (O & D). destruct tl_expected as (U & X & Y).
  split; [exact L|]. split; [exact N|]. split; [exact S|]. split; [exact half_draws_fair|]. split; [exact B0|]. split; [exact F|]. split; [exact tl_windows|]. split; [exact tl_plain|].
  split; [exact T|]. split; [exact E|]. split; [exact R|]. split; [exact O|]. split; [exact D|]. split; [exact tl_ok|]. split; [exact H|]. split; [exact tl_shown|].
  split; [rewrite tl_shown; exact (proj1 sa_shown)|]. split; [exact U|]. split; [exact X|exact Y].
Qed.

(** *** A buff for six uses: the ticks of damage over time, the trailing ones too, use it up as they are snapshot, before the hit. *)
Definition tc_l : list instr := [PressAt 0 (tap "Charge" None); PressAt 1 (tap "Burn" None); PressAt 3 (tap "Hit" None)].
Definition tc_b : builder := fst (ran (sk_run cz_library tc_l)).
Definition tc_r : builder := snd (ran (sk_run cz_library tc_l)).
Definition tc_fewer : list instance := hits_of (tl_hits cz_library true tc_l).
Definition tc_hits : list instance := hits_of (tl_hits cz_library false tc_l).
Definition tc_b0 : builder := fst (ran (sk_start cz_library)).
Lemma tc_ok : sk_start cz_library = Ok tc_b0 /\ follow tc_b0 tc_l = Ok tc_b /\ get_skill_timing tc_b = Ok tc_r
  /\ tl_hits cz_library true tc_l = Ok tc_fewer /\ tl_hits cz_library false tc_l = Ok tc_hits.
Proof. split; [vm_compute; reflexivity|]. split; [vm_compute; reflexivity|]. split; [vm_compute; reflexivity|]. split; vm_compute; reflexivity. Qed.
Definition charged : Q := 3 # 2.
Lemma tc_shown : map bonuses tc_fewer = [(1400, "Burn", charged); (1400, "Burn (tick)", charged); (3500, "Hit", charged)]
  /\ map bonuses tc_hits = [(1400, "Burn", charged); (1400, "Burn (tick)", charged); (3500, "Hit", 1%Q); (4400, "Burn (tick)", charged);
         (7400, "Burn (tick)", charged); (10400, "Burn (tick)", charged); (13400, "Burn (tick)", charged)].
Proof. split; vm_compute; reflexivity. Qed.
Lemma tc_burns : forall s m fus fu, In s (skills_of tc_b) -> get_follow_up_skills s m = Ok fus -> In fu fus -> fu = fx_burn_fu.
Proof.
  assert (E : skills_of tc_b = [cz_charge; fx_burn; fx_hit]) by (vm_compute; reflexivity). apply (burns _ _ E).
  repeat constructor; first [left; reflexivity|right; reflexivity].
Qed.
Lemma tc_tidy : Forall orderly (timeline tc_r) /\ distinct_places (timeline tc_r).
Proof. split; [apply orderlyb_sound; vm_compute; reflexivity | apply apart_sound; vm_compute; reflexivity]. Qed.
Theorem counted_ticks_refuted :
  ~ (forall st lib snap start w target b0 l b r hits hits',
      rb_init st lib snap false false (Some start) w target = Ok b0 -> follow b0 l = Ok b -> no_windows b ->
      (forall fu, dot_of b fu -> grants_nothing (fu_skill fu)) -> tells_apart b -> exact_ticks b ->
      get_skill_timing b = Ok r -> Forall orderly (timeline r) -> distinct_places (timeline r) ->
      hits_with st lib snap false true (Some start) w target l = Ok hits ->
      hits_with st lib snap false false (Some start) w target l = Ok hits' ->
      exists own, Permutation (map unnumbered hits') (map unnumbered (own ++ hits))).
Proof.
  intros X. destruct tc_ok as (B0 & F & R & H & H'). destruct tc_tidy as (O & D).
  destruct (X fx_stats cz_library None 0 (RWTuple []) DEFAULT_TARGET tc_b0 tc_l tc_b tc_r tc_fewer tc_hits B0 F) as (own & P); auto.
  - apply no_tuple_windows. vm_compute. reflexivity.
  - intros fu (_ & s & m & fus & I & G & J). rewrite (tc_burns s m fus fu I G J). intros n. repeat split.
  - exact (burns_apart _ tc_burns).
  - left. vm_compute. reflexivity.
  - apply (Permutation_map bonuses) in P. rewrite !map_map, map_app in P.
    change (fun x => bonuses (unnumbered x)) with bonuses in P. destruct tc_shown as (S & S'). rewrite S, S' in P.
    assert (I : In (3500, "Hit", charged) [(1400, "Burn", charged); (1400, "Burn (tick)", charged); (3500, "Hit", 1%Q); (4400, "Burn (tick)", charged);
         (7400, "Burn (tick)", charged); (10400, "Burn (tick)", charged); (13400, "Burn (tick)", charged)]).
    { apply (Permutation_in _ (Permutation_sym P)), in_or_app. right. right. right. left. reflexivity. }
    cbn in I. repeat (destruct I as [I|I]; [discriminate I|]). destruct I.
Qed.
