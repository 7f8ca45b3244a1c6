(** * Better gear in a whole rotation (C78) *)

From Coq Require Import ZArith QArith List String Bool Lia Lqa.
From Verif Require Import Base BaseFacts Float FloatFacts Types Lookup Stats Library Events Rotation DamageBuild Damage SpecHit HitFacts SimFacts
  SpecReplay SpecShuffle Relabel SpecMove SpecNeed NeedFacts SpecGear.
Import ListNotations.
Open Scope string_scope.
Open Scope Z_scope.

(** ** When things happen *)

(** The pace of [st], the strength of [x]. *)
Definition regear (st x : stats) : stats :=
  mkStats (st_wd x) (st_weapon_delay st) (st_main_stat x) (st_det x) (st_dh x) (st_crit x) (st_speed st) (st_job st) (st_version st)
    (st_tenacity x) (st_num_roles x) (st_healer_strength x) (st_level st) (ps_crit_rate x) (ps_crit_bonus x) (ps_det_bonus x)
    (ps_dh_rate x) (ps_job_mod x) (ps_trait_damage_mult x) (ps_trait_haste st) (ps_trait_auto st).

(** The same builder with the stats [st']. *)
Definition with_stats (st' : stats) (b : builder) : builder :=
  mkBuilder st' (b_library b) (b_snap_dots b) (b_autos b) (b_ignore_trailing b) (b_fight_start b) (b_windows b) (b_default_target b)
    (b_priority b) (b_timed b) (b_sequence b) (b_dots b) (b_press b) (b_queue b) (b_stamps b) (b_targets b).
Lemma paced g g' st st' : same_pace g g' -> stats_of g = Ok st -> stats_of g' = Ok st' -> st' = regear st st'.
Proof.
  destruct g as [wd dl mn det dh crit sp job ver ten roles heal lev].
  destruct g' as [wd' dl' mn' det' dh' crit' sp' job' ver' ten' roles' heal' lev'].
  unfold same_pace, stats_of, make_stats. cbn -[dget]. intros (-> & -> & -> & -> & ->) H H'.
  apply bind_ok in H as (c & Ec & H). apply bind_ok in H as (jm & Ej & H). apply bind_ok in H as (red & Er & H).
  apply bind_ok in H as (w & Ew & H). rewrite Ec, Ej, Er, Ew in H'. cbn -[dget] in H'. injection H as <-. injection H' as <-. reflexivity.
Qed.

Section Pace.
  Variables (x : stats).
  Definition restat (b : builder) : builder := with_stats (regear (b_stats b) x) b.

  Lemma skill_regear st sm t s m bu tg : process_skill (regear st x) sm t s m bu tg = process_skill st sm t s m bu tg.
  Proof. reflexivity. Qed.
  Lemma timed_regear st p i : process_timed (regear st x) p i = process_timed st p i.
  Proof. reflexivity. Qed.
  Lemma seq_regear st p i : process_seq (regear st x) p i = process_seq st p i.
  Proof. reflexivity. Qed.
  Lemma periods_regear b : get_no_auto_periods (restat b) = get_no_auto_periods b.
  Proof. reflexivity. Qed.
  Lemma loop_regear b stamps au delay wd lt : forall fuel qu sn ind,
    auto_loop fuel (restat b) stamps au delay wd lt qu sn ind = auto_loop fuel b stamps au delay wd lt qu sn ind.
  Proof.
    induction fuel as [|n IH]; intros qu sn ind; cbn [auto_loop]; [reflexivity|].
    destruct (negb (sn + delay <? lt)); [reflexivity|]. apply bind_ext. intros [z target]. apply bind_ext. intros qu'.
    apply bind_ext. intros tl. apply bind_ext. intros [bu de]. rewrite periods_regear. apply bind_ext. intros ps.
    apply bind_ext. intros [t|]; [apply IH|reflexivity].
  Qed.
  Lemma autos_regear b stamps lt qu : add_autos (restat b) stamps lt qu = add_autos b stamps lt qu.
  Proof.
    unfold add_autos. apply bind_ext. intros short. apply bind_ext. intros au. apply bind_ext. intros f. apply bind_ext. intros f'.
    apply bind_ext. intros d. apply bind_ext. intros l. apply loop_regear.
  Qed.
  Lemma run_regear b : get_skill_timing (restat b) = rmap restat (get_skill_timing b).
  Proof.
    unfold get_skill_timing.
    change (with_windows (restat b) (process_downtime_windows (restat b))) with (restat (with_windows b (process_downtime_windows b))).
    set (c := with_windows b (process_downtime_windows b)). clearbody c. cbv zeta.
    change (process_q_sequence (restat c) q_init (b_dots (restat c)) [] (b_stamps (restat c)))
      with (process_q_sequence c q_init (b_dots c) [] (b_stamps c)).
    destruct (process_q_sequence c q_init (b_dots c) [] (b_stamps c)) as [p1|]; [|reflexivity]. cbn [bind].
    change (process_q_timed (restat c)) with (process_q_timed c).
    destruct (process_q_timed c _ _ _ _) as [p2|]; [|reflexivity]. cbn [bind].
    change (b_ignore_trailing (restat c)) with (b_ignore_trailing c). change (b_snap_dots (restat c)) with (b_snap_dots c).
    change (b_autos (restat c)) with (b_autos c). change (b_fight_start (restat c)) with (b_fight_start c). change (b_windows (restat c)) with (b_windows c).
    destruct (process_all_dots _ _ _ _) as [q3|]; [|reflexivity]. cbn [bind]. rewrite autos_regear.
    destruct (if b_autos c then _ else _) as [q4|]; [|reflexivity]. cbn [bind].
    destruct (match b_fight_start c with Some _ => _ | None => _ end) as [[q5 pr]|]; [|reflexivity]. cbn [bind].
    destruct (remove_damage_during_downtime _ _) as [q6|]; reflexivity.
  Qed.
  Lemma carry_regear b i : carry_out (restat b) i = rmap restat (carry_out b i).
  Proof.
    destruct i as [c n|t c]; cbn [carry_out]; unfold add_next, add; change (process_targets (restat b)) with (process_targets b);
      destruct (process_targets b (c_targets c)) as [tg al]; change (job_or_default (restat b)) with (job_or_default b);
      change (b_library (restat b)) with (b_library b); destruct (get_skill _ _ _); reflexivity.
  Qed.
  Lemma follow_regear l : forall b, follow (restat b) l = rmap restat (follow b l).
  Proof. unfold follow. apply foldM_map. exact carry_regear. Qed.
  Lemma init_regear st lib snap au ig fs w target : rb_init (regear st x) lib snap au ig fs w target = rmap restat (rb_init st lib snap au ig fs w target).
  Proof. unfold rb_init. change (st_job (regear st x)) with (st_job st). destruct (get_status_effect_priority lib (st_job st)); reflexivity. Qed.

  Lemma timing_regear st lib snap au ig fs w target l :
    timing_with (regear st x) lib snap au ig fs w target l = timing_with st lib snap au ig fs w target l.
  Proof.
    unfold timing_with. rewrite init_regear. destruct (rb_init st lib snap au ig fs w target) as [b|]; [|reflexivity]. cbn [rmap bind].
    rewrite follow_regear. destruct (follow b l) as [b1|]; [|reflexivity]. cbn [rmap bind].
    rewrite run_regear. destruct (get_skill_timing b1); reflexivity.
  Qed.
  Lemma hits_regear st lib snap au ig fs w target l :
    hits_with (regear st x) lib snap au ig fs w target l = hits_with st lib snap au ig fs w target l.
  Proof.
    unfold hits_with. rewrite init_regear. destruct (rb_init st lib snap au ig fs w target) as [b|]; [|reflexivity]. cbn [rmap bind].
    rewrite follow_regear. destruct (follow b l) as [b1|]; [|reflexivity]. cbn [rmap bind].
    rewrite run_regear. destruct (get_skill_timing b1); reflexivity.
  Qed.
End Pace.

Lemma same_timing g g' st st' lib snap au ig fs w target l : same_pace g g' -> stats_of g = Ok st -> stats_of g' = Ok st' ->
  timing_with st' lib snap au ig fs w target l = timing_with st lib snap au ig fs w target l
  /\ hits_with st' lib snap au ig fs w target l = hits_with st lib snap au ig fs w target l.
Proof. intros P S S'. rewrite (paced g g' st st' P S S'). split; [apply timing_regear|apply hits_regear]. Qed.
