(** * A run depends on the version only through the constants *)

From Coq Require Import ZArith QArith List String Bool Lia.
From Verif Require Import Base BaseFacts Float Strings Types Lookup Stats Library StatusEffect JobResource Combo Channeling Events
  Rotation Csv.
Import ListNotations.
Open Scope string_scope.
Open Scope Z_scope.

Definition relabel_stats (v : string) (s : stats) : stats :=
  mkStats (st_wd s) (st_weapon_delay s) (st_main_stat s) (st_det s) (st_dh s) (st_crit s) (st_speed s) (st_job s) v
    (st_tenacity s) (st_num_roles s) (st_healer_strength s) (st_level s) (ps_crit_rate s) (ps_crit_bonus s) (ps_det_bonus s)
    (ps_dh_rate s) (ps_job_mod s) (ps_trait_damage_mult s) (ps_trait_haste s) (ps_trait_auto s).
Definition relabel_lib (v : string) (l : library) : library :=
  mkLib (lib_skills l) (lib_priority l) (lib_resources l) (lib_breakers l) (lib_current l) v (lib_level l).
Definition relabel (v : string) (b : builder) : builder :=
  mkBuilder (relabel_stats v (b_stats b)) (relabel_lib v (b_library b)) (b_snap_dots b) (b_autos b) (b_ignore_trailing b)
    (b_fight_start b) (b_windows b) (b_default_target b) (b_priority b) (b_timed b) (b_sequence b) (b_dots b)
    (b_press b) (b_queue b) (b_stamps b) (b_targets b).
Definition rmap {A B} (f : A -> B) (x : res A) : res B := match x with Ok a => Ok (f a) | Err e => Err e end.

Lemma bind_ext {A B} (x : res A) (f g : A -> res B) : (forall a, f a = g a) -> bind x f = bind x g.
Proof. intros H. destruct x; [apply H|reflexivity]. Qed.
Lemma foldM_ext {A B} (f g : A -> B -> res A) l : (forall a b, f a b = g a b) -> forall a, foldM f l a = foldM g l a.
Proof. intros H. induction l as [|x l IH]; intros a; [reflexivity|]. cbn [foldM]. rewrite H. apply bind_ext. exact IH. Qed.
Lemma foldM_map {A B} (f g : A -> B -> res A) (h : A -> A) l :
  (forall a b, g (h a) b = rmap h (f a b)) -> forall a, foldM g l (h a) = rmap h (foldM f l a).
Proof.
  intros H. induction l as [|x l IH]; intros a; [reflexivity|]. cbn [foldM]. rewrite H.
  destruct (f a x) as [a'|e]; cbn [rmap bind]; [apply IH|reflexivity].
Qed.

Section Version.
  Variables (v w : string).
  Hypothesis (V : String.eqb v "test" = false) (W : String.eqb w "test" = false).

  Section Stats.
    Variable st : stats.
    Hypothesis (S : st_version st = w).
    Lemma time_relabel t sp lv : get_time_using_speed_stat t sp v lv = get_time_using_speed_stat t sp (st_version st) lv.
    Proof. unfold get_time_using_speed_stat, get_consts. rewrite S, V, W. reflexivity. Qed.
    Lemma cast_relabel ts m bu : get_cast_time (relabel_stats v st) ts m bu = get_cast_time st ts m bu.
    Proof.
      unfold get_cast_time, scaled_time, relabel_stats. cbn [st_version st_speed st_level ps_trait_haste].
      destruct (sm_ignore_cast_times m); [reflexivity|]. apply bind_ext. intros x. rewrite time_relabel. reflexivity.
    Qed.
    Lemma recast_relabel ts bu de : get_recast_time (relabel_stats v st) ts bu de = get_recast_time st ts bu de.
    Proof.
      unfold get_recast_time, relabel_stats. cbn [st_version st_speed st_level ps_trait_haste]. rewrite time_relabel. reflexivity.
    Qed.
    Lemma skill_relabel sm t s m bu tg : process_skill (relabel_stats v st) sm t s m bu tg = process_skill st sm t s m bu tg.
    Proof. unfold process_skill. apply bind_ext. intros ts. rewrite cast_relabel. reflexivity. Qed.
    Lemma timed_relabel p x : process_timed (relabel_stats v st) p x = process_timed st p x.
    Proof.
      unfold process_timed. apply bind_ext. intros [[[tk m1] bu] de]. apply bind_ext. intros m2. apply bind_ext. intros main.
      rewrite skill_relabel. reflexivity.
    Qed.
    Lemma seq_relabel p x : process_seq (relabel_stats v st) p x = process_seq st p x.
    Proof.
      unfold process_seq. apply bind_ext. intros [[[tk m1] bu] de]. apply bind_ext. intros m2. apply bind_ext. intros ts.
      apply bind_ext. intros main. rewrite skill_relabel. apply bind_ext. intros sm. apply bind_ext. intros ts'.
      destruct (sk_is_GCD (sq_skill x)); [|reflexivity]. rewrite recast_relabel. apply bind_ext. intros rc.
      rewrite cast_relabel. reflexivity.
    Qed.
  End Stats.

  Variable b : builder.
  Hypothesis (B : st_version (b_stats b) = w).
  Let b' := relabel v b.

  Lemma periods_relabel : get_no_auto_periods b' = get_no_auto_periods b.
  Proof.
    unfold get_no_auto_periods. apply bind_ext. intros tk. apply bind_ext. intros order.
    rewrite (foldM_ext (no_auto_step b') (no_auto_step b)); [reflexivity|].
    intros [[tk' ch] casts] x. unfold no_auto_step. apply bind_ext. intros ch'. apply bind_ext. intros [[[tk1 m1] bu] de].
    apply bind_ext. intros ts. unfold b', relabel. cbn [b_stats]. rewrite cast_relabel by exact B. reflexivity.
  Qed.
  Lemma loop_relabel stamps au delay wd lt : forall fuel qu sn ind,
    auto_loop fuel b' stamps au delay wd lt qu sn ind = auto_loop fuel b stamps au delay wd lt qu sn ind.
  Proof.
    induction fuel as [|n IH]; intros qu sn ind; cbn [auto_loop]; [reflexivity|].
    destruct (negb (sn + delay <? lt)); [reflexivity|]. apply bind_ext. intros [z target]. apply bind_ext. intros qu'.
    apply bind_ext. intros tl. apply bind_ext. intros [bu de]. rewrite periods_relabel. apply bind_ext. intros ps.
    apply bind_ext. intros [t|]; [apply IH|reflexivity].
  Qed.
  Lemma autos_relabel stamps lt qu : add_autos b' stamps lt qu = add_autos b stamps lt qu.
  Proof.
    unfold add_autos. apply bind_ext. intros short. apply bind_ext. intros au. apply bind_ext. intros f. apply bind_ext. intros f'.
    apply bind_ext. intros d. apply bind_ext. intros l. apply loop_relabel.
  Qed.
End Version.

Lemma run_relabel v b :
  String.eqb v "test" = false -> String.eqb (st_version (b_stats b)) "test" = false ->
  get_skill_timing (relabel v b) = rmap (relabel v) (get_skill_timing b).
Proof.
  intros V W. unfold get_skill_timing.
  change (with_windows (relabel v b) (process_downtime_windows (relabel v b)))
    with (relabel v (with_windows b (process_downtime_windows b))).
  set (c := with_windows b (process_downtime_windows b)). cbv zeta.
  assert (W' : String.eqb (st_version (b_stats c)) "test" = false) by exact W. clearbody c. clear W. cbv zeta.
  assert (E1 : forall qu d pr stamps, process_q_sequence (relabel v c) qu d pr stamps = process_q_sequence c qu d pr stamps).
  { intros. unfold process_q_sequence. apply bind_ext. intros tk. cbn [relabel b_stats b_sequence b_fight_start].
    rewrite (foldM_ext _ (process_seq (b_stats c))); [reflexivity|]. apply (seq_relabel v _ V W' _ eq_refl). }
  assert (E2 : forall qu d pr stamps, process_q_timed (relabel v c) qu d pr stamps = process_q_timed c qu d pr stamps).
  { intros. unfold process_q_timed. apply bind_ext. intros tk. apply bind_ext. intros o. apply foldM_ext.
    apply (timed_relabel v _ V W' _ eq_refl). }
  rewrite E1. cbn [relabel b_dots b_stamps].
  destruct (process_q_sequence c q_init (b_dots c) [] (b_stamps c)) as [p1|]; [|reflexivity]. cbn [bind].
  rewrite E2. destruct (process_q_timed c _ _ _ _) as [p2|]; [|reflexivity]. cbn [bind].
  cbn [relabel b_ignore_trailing b_snap_dots b_autos b_fight_start b_windows].
  destruct (process_all_dots _ _ _ _) as [q3|]; [|reflexivity]. cbn [bind].
  change (add_autos (mkBuilder _ _ _ _ _ _ _ _ _ _ _ _ _ _ _ _)) with (add_autos (relabel v c)).
  rewrite (autos_relabel v _ V W' c eq_refl).
  destruct (if b_autos c then _ else _) as [q4|]; [|reflexivity]. cbn [bind].
  destruct (match b_fight_start c with Some _ => _ | None => _ end) as [[q5 pr]|]; [|reflexivity]. cbn [bind].
  destruct (remove_damage_during_downtime _ _) as [q6|]; reflexivity.
Qed.

(** Building one. *)
Lemma add_relabel v b t n m j tg : add (relabel v b) t n m j tg = rmap (relabel v) (add b t n m j tg).
Proof.
  unfold add. change (process_targets (relabel v b) tg) with (process_targets b tg). destruct (process_targets b tg) as [x y].
  change (job_or_default (relabel v b) j) with (job_or_default b j).
  change (get_skill (b_library (relabel v b)) n (job_or_default b j)) with (get_skill (b_library b) n (job_or_default b j)).
  destruct (get_skill _ _ _); reflexivity.
Qed.
Lemma add_next_relabel v b n m j k tg : add_next (relabel v b) n m j k tg = rmap (relabel v) (add_next b n m j k tg).
Proof.
  unfold add_next. change (process_targets (relabel v b) tg) with (process_targets b tg). destruct (process_targets b tg) as [x y].
  change (job_or_default (relabel v b) j) with (job_or_default b j).
  change (get_skill (b_library (relabel v b)) n (job_or_default b j)) with (get_skill (b_library b) n (job_or_default b j)).
  destruct (get_skill _ _ _); reflexivity.
Qed.
Lemma example_relabel v b party skills :
  example_rotation (relabel v b) party skills = rmap (relabel v) (example_rotation b party skills).
Proof.
  unfold example_rotation. rewrite (foldM_map add_party_skill add_party_skill (relabel v)).
  - destruct (foldM add_party_skill party b) as [b1|]; [|reflexivity]. cbn [rmap bind].
    apply (foldM_map (fun b s => add_next b s None None 1 None)). intros. apply add_next_relabel.
  - intros c p. unfold add_party_skill. destruct (ps_modifier p) as [m|].
    + rewrite add_relabel. destruct (add c _ _ _ _ _); [apply add_relabel|reflexivity].
    + apply add_relabel.
Qed.
