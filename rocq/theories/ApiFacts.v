(** * Facts about [add] and [add_next] *)

From Coq Require Import ZArith QArith Qround List String Bool Lia Lqa Permutation Sorted.
From Verif Require Import Base Float Heap Strings Types Lookup StatusEffect JobResource Combo
  Channeling Stats Library Events Rotation BaseFacts FloatFacts HeapFacts SpecQueue EventsFacts SpecPlay PlayFacts
  LogFacts SpecTimeline TimelineFacts SpecDots DotFacts RunFacts SpecCond CondFacts SpecRun RunProps.
Import ListNotations.
Open Scope Z_scope.

Lemma split_targets_named s : targets_named s (split_targets s).
Proof.
  exists (split_comma s). destruct (split_spec s) as (E & F). split; [apply split_comma_ne|]. split; [symmetry; exact E|].
  split; [exact F|]. unfold split_targets. generalize (split_comma s) as l. induction l as [|p l IH]; cbn; constructor; [apply strip_spec | exact IH].
Qed.
Lemma targets_named_unique s tg : targets_named s tg -> tg = split_targets s.
Proof.
  intros (ps & N & -> & C & F). unfold split_targets. rewrite split_concat by assumption. clear N C.
  induction F as [|p x ps tg H F IH]; [reflexivity|]. cbn. rewrite <- IH. f_equal. symmetry. apply strip_unique, H.
Qed.
Lemma targets_named_ne s tg : targets_named s tg -> tg <> [].
Proof. intros (ps & N & _ & _ & F) ->. inversion F; subst. congruence. Qed.

Lemma qtrunc_truncates x : truncates x (qtrunc x).
Proof.
  unfold truncates, qtrunc. destruct (Qle_bool 0 x) eqn:E.
  - apply Qle_bool_iff in E. split; [|intros L; lra]. intros _. split; [apply Qfloor_le | apply Qlt_floor].
  - assert (L : (x < 0)%Q). { destruct (Qlt_le_dec x 0) as [L|L]; [exact L|]. apply Qle_bool_iff in L. congruence. }
    split; [intros L2; lra|]. intros _. split; [apply Qceiling_lt | apply Qle_ceiling].
Qed.

Lemma canonicalize_named s : conditions_named s (canonicalize s).
Proof.
  split; [apply canonicalize_nodup|]. destruct s as [|c s]; [left; split; reflexivity|]. right. split; [discriminate|].
  destruct (split_spec (String c s)) as (E & F). exists (split_comma (String c s)).
  split; [apply split_comma_ne|]. split; [symmetry; exact E|]. split; [exact F|].
  intros x. rewrite canonicalize_in. split.
  - intros (_ & p & H & S). exists p. split; [exact H | apply strip_iff, S].
  - intros (p & H & S). split; [discriminate|]. exists p. split; [exact H | apply strip_iff, S].
Qed.
Lemma modifier_default b s job : default_for b s job (get_default_skill_modifier b s job).
Proof.
  unfold get_default_skill_modifier. destruct (String.eqb_spec job (st_job (b_stats b))) as [E|E].
  - split; [repeat split|]. left. split; [exact E | reflexivity].
  - split; [repeat split|]. right. split; [exact E | apply canonicalize_named].
Qed.

Lemma add_spec b t name m job targets b' :
  add b t name m job targets = Ok b' ->
  exists x, b_timed b' = (b_timed b ++ [x])%list /\ b_sequence b' = b_sequence b /\ same_settings b b'
    /\ truncates (fmul 1000 t) (tm_time x)
    /\ tm_job x = match job with Some j => j | None => st_job (b_stats b) end
    /\ get_skill (b_library b) name (tm_job x) = Ok (tm_skill x)
    /\ (forall m', m = Some m' -> tm_modifier x = m')
    /\ (m = None -> default_for b (tm_skill x) (tm_job x) (tm_modifier x))
    /\ targets_named (match targets with Some s => s | None => b_default_target b end) (tm_targets x).
Proof.
  intros H. apply add_fields in H as (s & j & tg & G & -> & -> & ->). eexists. split; [reflexivity|]. split; [reflexivity|].
  split; [repeat split|]. cbn [tm_time tm_job tm_skill tm_modifier tm_targets]. split; [apply qtrunc_truncates|].
  split; [reflexivity|]. split; [exact G|]. split; [intros m' ->; reflexivity|]. split; [intros ->; apply modifier_default|]. apply split_targets_named.
Qed.
Lemma add_next_spec b name m job n targets b' :
  add_next b name m job n targets = Ok b' ->
  exists x, b_sequence b' = (b_sequence b ++ repeat x (Z.to_nat n))%list /\ b_timed b' = b_timed b /\ same_settings b b'
    /\ sq_job x = match job with Some j => j | None => st_job (b_stats b) end
    /\ get_skill (b_library b) name (sq_job x) = Ok (sq_skill x)
    /\ (forall m', m = Some m' -> sq_modifier x = m')
    /\ (m = None -> default_for b (sq_skill x) (sq_job x) (sq_modifier x))
    /\ targets_named (match targets with Some s => s | None => b_default_target b end) (sq_targets x).
Proof.
  intros H. apply add_next_fields in H as (s & j & tg & G & -> & -> & ->). eexists. split; [reflexivity|]. split; [reflexivity|].
  split; [repeat split|]. cbn [sq_job sq_skill sq_modifier sq_targets].
  split; [reflexivity|]. split; [exact G|]. split; [intros m' ->; reflexivity|]. split; [intros ->; apply modifier_default|]. apply split_targets_named.
Qed.

Lemma add_unknown b t name m job targets e :
  get_skill (b_library b) name (match job with Some j => j | None => st_job (b_stats b) end) = Err e ->
  add b t name m job targets = Err e /\ forall n, add_next b name m job n targets = Err e.
Proof.
  intros H. unfold add, add_next, job_or_default. destruct (process_targets b targets). rewrite H. split; reflexivity.
Qed.
Lemma get_skill_error l name job e : get_skill l name job = Err e -> e = KeyError.
Proof.
  unfold get_skill. destruct (dget job (lib_skills l)) as [d|]; cbn; [destruct (dget name d); cbn; congruence | congruence].
Qed.

Lemma sadd_all_again l : forall acc, (forall x, In x l -> In x acc) -> fold_left (fun acc x => sadd x acc) l acc = acc.
Proof.
  induction l as [|x l IH]; intros acc H; cbn; [reflexivity|].
  assert (E : sadd x acc = acc). { unfold sadd. rewrite (proj2 (smem_spec x acc)) by (apply H; left; reflexivity). reflexivity. }
  rewrite E. apply IH. intros y Hy. apply H. right; exact Hy.
Qed.
Lemma sadd_all_in l : forall acc y, In y (fold_left (fun acc x => sadd x acc) l acc) <-> In y l \/ In y acc.
Proof.
  induction l as [|x l IH]; intros acc y; cbn; [tauto|]. rewrite IH, sadd_in. firstorder congruence.
Qed.

Lemma add_next_eq b name m job n targets :
  add_next b name m job n targets
  = let '(tg, all) := process_targets b targets in
    let* s := get_skill (b_library b) name (job_or_default b job) in
    Ok (mkBuilder (b_stats b) (b_library b) (b_snap_dots b) (b_autos b) (b_ignore_trailing b) (b_fight_start b)
          (b_windows b) (b_default_target b) (b_priority b) (b_timed b)
          (b_sequence b ++ repeat (mkSeq s (modifier_or_default b s m (job_or_default b job)) (job_or_default b job) tg) (Z.to_nat n))
          (b_dots b) (b_press b) (b_queue b) (b_stamps b) all).
Proof. reflexivity. Qed.

Lemma add_next_repeat name m job targets n : forall b,
  (0 < n)%nat ->
  foldM (fun b (_ : unit) => add_next b name m job 1 targets) (repeat tt n) b
  = add_next b name m job (Z.of_nat n) targets.
Proof.
  induction n as [|n IH]; intros b P; [lia|]. cbn [repeat foldM].
  rewrite (add_next_eq b name m job 1), (add_next_eq b name m job (Z.of_nat (S n))).
  destruct (process_targets b targets) as [tg all] eqn:Ep.
  destruct (get_skill (b_library b) name (job_or_default b job)) as [s|e] eqn:G; [|reflexivity]. cbn [bind].
  destruct n as [|n]; [reflexivity|].
  rewrite IH by lia. rewrite add_next_eq.
  assert (Ea : process_targets (mkBuilder (b_stats b) (b_library b) (b_snap_dots b) (b_autos b) (b_ignore_trailing b) (b_fight_start b)
          (b_windows b) (b_default_target b) (b_priority b) (b_timed b)
          (b_sequence b ++ repeat (mkSeq s (modifier_or_default b s m (job_or_default b job)) (job_or_default b job) tg) (Z.to_nat 1))
          (b_dots b) (b_press b) (b_queue b) (b_stamps b) all) targets = (tg, all)).
  { unfold process_targets in *. cbn [b_default_target b_targets]. injection Ep as E1 E2. rewrite E1 in *. rewrite sadd_all_again; [congruence|].
    intros x Hx. rewrite <- E2. apply sadd_all_in. left; exact Hx. }
  rewrite Ea. cbn [b_library]. change (job_or_default (mkBuilder _ _ _ _ _ _ _ _ _ _ _ _ _ _ _ _) job) with (job_or_default b job). rewrite G. cbn [bind].
  f_equal. cbn [b_stats b_library b_snap_dots b_autos b_ignore_trailing b_fight_start b_windows b_default_target b_priority b_timed b_sequence b_dots b_press b_queue b_stamps].
  f_equal. rewrite <- app_assoc. f_equal. rewrite !Nat2Z.id. reflexivity.
Qed.

(** Every target of a rotation that has not run is known to the builder. *)
Lemma built_targets b :
  built b ->
  (forall x t, In x (b_sequence b) -> In t (sq_targets x) -> In t (b_targets b))
  /\ (forall x t, In x (b_timed b) -> In t (tm_targets x) -> In t (b_targets b)).
Proof.
  induction 1 as [st lib snap autos trailing start w target b H|b t name m job targets b' _ IH H|b name m job n targets b' _ IH H|b x _ IH|b x _ IH].
  - unfold rb_init in H. inv_bind H. injection H as <-. split; intros x t [].
  - apply add_fields in H as (s & j & tg & _ & -> & -> & _). cbn. destruct IH as (I1 & I2). split.
    + intros x u Hx Hu. apply sadd_all_in. right. eapply I1; eassumption.
    + intros x u Hx Hu. apply sadd_all_in. apply in_app_or in Hx as [Hx|[<-|[]]]; [right; eapply I2; eassumption | left; exact Hu].
  - apply add_next_fields in H as (s & j & tg & _ & -> & -> & _). cbn. destruct IH as (I1 & I2). split.
    + intros x u Hx Hu. apply sadd_all_in. apply in_app_or in Hx as [Hx|Hx]; [right; eapply I1; eassumption|].
      apply repeat_spec in Hx. subst x. left; exact Hu.
    + intros x u Hx Hu. apply sadd_all_in. right. eapply I2; eassumption.
  - exact IH.
  - exact IH.
Qed.

(** ** Forms used by PropsRotation.v *)

Lemma timeline_ids_order b b' :
  reachable b -> get_skill_timing b = Ok b' ->
  let l := q_heap (b_queue b') in
  NoDup (map ev_id l)
  /\ (forall e, In e l -> 0 <= ev_id e < Z.of_nat (List.length l))
  /\ (forall e e', In e l -> In e' l -> ev_id e < ev_id e' -> key_le e e').
Proof. intros R H. apply numbered_ids_facts. eapply timeline_ids; eassumption. Qed.

Lemma sequence_presses b b' :
  reachable b -> get_skill_timing b = Ok b' -> b_timed b = [] -> nonneg_locks b ->
  exists slog d,
    rotation_played b slog []
    /\ get_button_press_timing b' = map (press_earlier d) (map (press_record (st_job (b_stats b))) slog)
    /\ StronglySorted (fun p q => pl_time p <= pl_time q) slog
    /\ StronglySorted (fun x y => pr_time x <= pr_time y) (get_button_press_timing b')
    /\ forall p q, consecutive_gcds slog p q ->
         exists spec r, pl_timing p = Some spec /\ is_recast_time (b_stats b) spec (pl_buffs p) (pl_debuffs p) r
           /\ pl_time p + r <= pl_time q.
Proof.
  intros R H N L. destruct (presses_shown b b' R H) as (slog & tlog & d & Pl & Sh & _).
  pose proof Pl as (P1 & P2 & (order & P3 & _ & P4) & _ & P5 & _).
  rewrite N in P3. apply Permutation_nil in P3. subst order. inversion P4; subst tlog.
  exists slog, d. split; [exact Pl|]. rewrite app_nil_r in *.
  assert (So : StronglySorted (fun p q => pl_time p <= pl_time q) slog).
  { eapply scheduled_ready; [exact P2 | exact P5|]. eapply played_locks; [exact Pl | exact L]. }
  split.
  { apply in_time_order_sorted; [exact Sh|]. apply StronglySorted_map. cbn. apply StronglySorted_map. cbn.
    clear - So. induction So as [|p l S IH F]; constructor; [exact IH|]. eapply Forall_impl; [|exact F]. cbn. intros; lia. }
  split; [exact So|]. split; [apply Sh|]. intros p q C. eapply gcd_gap; eassumption.
Qed.

Lemma gcd_floor b slog tlog p q spec :
  rotation_played b slog tlog -> consecutive_gcds slog p q ->
  pl_timing p = Some spec -> gcd_base_recast spec = 2500 ->
  pl_time p + 1500 <= pl_time q.
Proof.
  intros R C T E. destruct (gcd_gap _ _ _ _ _ R C) as (spec' & r & T' & I & L). rewrite T in T'. injection T' as <-.
  pose proof (recast_floor _ _ _ _ _ I E). lia.
Qed.

Lemma run_floor b b' : reachable b -> get_skill_timing b = Ok b' ->
  exists slog tlog d, rotation_played b slog tlog /\ shows_presses b b' (slog ++ tlog) d
    /\ forall p q spec, consecutive_gcds slog p q -> pl_timing p = Some spec -> gcd_base_recast spec = 2500 ->
         pl_time p + 1500 <= pl_time q.
Proof.
  intros R H. destruct (presses_shown b b' R H) as (slog & tlog & d & Pl & Sh & _). exists slog, tlog, d.
  split; [exact Pl|]. split; [exact Sh|]. intros p q spec C T E. exact (gcd_floor _ _ _ _ _ _ Pl C T E).
Qed.

Lemma press_times b slog tlog p :
  rotation_played b slog tlog -> In p (slog ++ tlog) ->
  0 <= pl_cast p
  /\ pl_snapshot p = pl_time p + Z.max 0 (pl_cast p - 500)
  /\ (forall spec, pl_timing p = Some spec -> sm_ignore_application_delay (pl_modifier p) = false ->
       pl_application p = pl_time p + pl_cast p
         + (if 0 <? pl_cast p then Z.max 0 (application_delay spec - 500) else application_delay spec))
  /\ (sm_ignore_application_delay (pl_modifier p) = true -> pl_application p = pl_time p + pl_cast p)
  /\ (sm_ignore_cast_times (pl_modifier p) = true -> pl_cast p = 0 /\ pl_snapshot p = pl_time p)
  /\ (nonneg_delays b -> pl_time p <= pl_snapshot p <= pl_application p).
Proof.
  intros R H. assert (C : 0 <= pl_cast p).
  { destruct R as (_ & _ & _ & _ & C & _). rewrite Forall_forall in C. apply C, H. }
  split; [exact C|]. split; [unfold pl_snapshot; destruct (Z.leb_spec (pl_cast p) 500); lia|].
  split.
  { intros spec T I. unfold pl_application, delay_after_cast. rewrite I, T.
    destruct (Z.ltb_spec 0 (pl_cast p)), (Z.leb_spec (pl_cast p) 0); try lia.
    destruct (Z.leb_spec (application_delay spec) 500); lia. }
  split; [apply ignore_delay|]. split; [apply (ignore_cast _ _ _ _ R H)|]. intros N. eapply press_order; eassumption.
Qed.

Lemma add_asks b t name m job targets b' :
  add b t name m job targets = Ok b' ->
  exists x, b_timed b' = (b_timed b ++ [x])%list /\ b_sequence b' = b_sequence b
    /\ truncates (fmul 1000 t) (tm_time x).
Proof. intros H. apply add_spec in H as (x & H). exists x. tauto. Qed.

Lemma targets_unique s :
  exists tg, targets_named s tg /\ tg <> [] /\ forall tg', targets_named s tg' -> tg' = tg.
Proof.
  exists (split_targets s). pose proof (split_targets_named s) as H. split; [exact H|].
  split; [eapply targets_named_ne, H | apply targets_named_unique].
Qed.

Lemma unknown_skill b t name m job targets n :
  let j := match job with Some j => j | None => st_job (b_stats b) end in
  ((exists s, get_skill (b_library b) name j = Ok s) /\ (exists b', add b t name m job targets = Ok b')
     /\ (exists b', add_next b name m job n targets = Ok b'))
  \/ (get_skill (b_library b) name j = Err KeyError /\ add b t name m job targets = Err KeyError
     /\ add_next b name m job n targets = Err KeyError).
Proof.
  intros j. destruct (get_skill (b_library b) name j) as [s|e] eqn:G.
  - left. split; [eauto|]. unfold add, add_next, job_or_default. fold j. destruct (process_targets b targets).
    rewrite G. cbn [bind]. eauto.
  - right. pose proof (get_skill_error _ _ _ _ G). subst e. split; [reflexivity|].
    destruct (add_unknown b t name m job targets KeyError G) as (A & B). auto.
Qed.
