(** * Lemmas behind the rotation properties *)

From Coq Require Import ZArith QArith List String Bool Lia Permutation Sorted.
From Verif Require Import Base Float Heap Strings Types Lookup StatusEffect JobResource Combo
  Channeling Stats Library Events Rotation BaseFacts FloatFacts HeapFacts SpecQueue EventsFacts SpecPlay PlayFacts
  LogFacts SpecTimeline TimelineFacts SpecDots DotFacts RunFacts SpecRun.
Import ListNotations.
Open Scope Z_scope.

(** ** Reachable builders *)

Lemma add_fields b t name m job targets b' :
  add b t name m job targets = Ok b' ->
  exists s j tg, get_skill (b_library b) name j = Ok s
    /\ b' = mkBuilder (b_stats b) (b_library b) (b_snap_dots b) (b_autos b) (b_ignore_trailing b)
        (b_fight_start b) (b_windows b) (b_default_target b) (b_priority b)
        (b_timed b ++ [mkTimed (qtrunc (fmul (q 1000) t)) s (modifier_or_default b s m j) j tg])%list (b_sequence b) (b_dots b) (b_press b) (b_queue b) (b_stamps b)
        (snd (process_targets b targets))
    /\ tg = fst (process_targets b targets) /\ j = job_or_default b job.
Proof.
  unfold add. destruct (process_targets b targets) as [tg all] eqn:E. intros H. inv_bind H. injection H as <-.
  exists a, (job_or_default b job), tg. repeat split. exact E0.
Qed.
Lemma add_next_fields b name m job n targets b' :
  add_next b name m job n targets = Ok b' ->
  exists s j tg, get_skill (b_library b) name j = Ok s
    /\ b' = mkBuilder (b_stats b) (b_library b) (b_snap_dots b) (b_autos b) (b_ignore_trailing b)
        (b_fight_start b) (b_windows b) (b_default_target b) (b_priority b) (b_timed b)
        (b_sequence b ++ repeat (mkSeq s (modifier_or_default b s m j) j tg) (Z.to_nat n))%list (b_dots b) (b_press b) (b_queue b) (b_stamps b)
        (snd (process_targets b targets))
    /\ tg = fst (process_targets b targets) /\ j = job_or_default b job.
Proof.
  unfold add_next. destruct (process_targets b targets) as [tg all] eqn:E. intros H. inv_bind H. injection H as <-.
  exists a, (job_or_default b job), tg. repeat split. exact E0.
Qed.

Lemma built_fresh b : built b -> b_dots b = [] /\ b_stamps b = [].
Proof.
  induction 1 as [st lib snap autos trailing start w target b H|b t name m job targets b' _ IH H|b name m job n targets b' _ IH H|b x _ IH|b x _ IH].
  - unfold rb_init in H. inv_bind H. injection H as <-. auto.
  - apply add_fields in H as (s & j & tg & _ & -> & _). exact IH.
  - apply add_next_fields in H as (s & j & tg & _ & -> & _). exact IH.
  - exact IH.
  - exact IH.
Qed.
Lemma built_reachable b : built b -> reachable b.
Proof.
  induction 1; [eapply reach_init; eassumption | eapply reach_add; eassumption | eapply reach_add_next; eassumption
               | apply reach_autos; assumption | apply reach_trailing; assumption].
Qed.

Lemma run_dots b b' :
  get_skill_timing b = Ok b' ->
  exists slog tlog, sequence_log b = Ok slog /\ timeds_log b = Ok tlog
    /\ b_dots b' = fold_left record_dot (flat_map press_dots (slog ++ tlog)) (b_dots b).
Proof.
  rewrite get_skill_timing_eq. cbv zeta. unfold presses_pass. intros H. inv_bind H. inv_bind E. inv_bind E.
  exists a0, a1. split; [exact E0|]. split; [exact E1|].
  unfold log_pass in E. inv_bind E. injection E as <-. unfold timing_tail in H.
  inv_bind H. inv_bind H. inv_bind H. destruct a4. inv_bind H. injection H as <-. reflexivity.
Qed.
Lemma reachable_dots b : reachable b -> dots_ok (b_dots b).
Proof.
  induction 1 as [st lib snap autos trailing start w target b H|b t name m job targets b' _ IH H|b name m job n targets b' _ IH H|b x _ IH|b x _ IH|b b' _ IH H].
  - unfold rb_init in H. inv_bind H. injection H as <-. intros kv x [].
  - apply add_fields in H as (s & j & tg & _ & -> & _). exact IH.
  - apply add_next_fields in H as (s & j & tg & _ & -> & _). exact IH.
  - exact IH.
  - exact IH.
  - apply run_dots in H as (slog & tlog & _ & _ & ->). apply record_dots_ok; [exact IH | apply log_dots_dot].
Qed.

(** ** C03 *)

Lemma timeline_ids b b' :
  reachable b -> get_skill_timing b = Ok b' -> numbered_ids (q_heap (b_queue b')).
Proof.
  intros R H. apply run_spec in H; [|apply reachable_dots, R].
  destruct H as (slog & tlog & q2 & autos & d & H). cbv zeta in H. tauto.
Qed.
Lemma numbered_ids_facts l :
  numbered_ids l ->
  NoDup (map ev_id l)
  /\ (forall e, In e l -> 0 <= ev_id e < Z.of_nat (List.length l))
  /\ (forall e e', In e l -> In e' l -> ev_id e < ev_id e' -> key_le e e').
Proof.
  intros (out & P & S & I). assert (Ln : List.length l = List.length out) by (apply Permutation_length, P).
  assert (N : NoDup (map ev_id out)).
  { rewrite I. apply FinFun.Injective_map_NoDup; [intros x y; apply Nat2Z.inj | apply seq_NoDup]. }
  split; [|split].
  - eapply Permutation_NoDup; [|exact N]. apply Permutation_map. symmetry. exact P.
  - intros e He. apply (Permutation_in _ P) in He. apply (in_map ev_id) in He. rewrite I in He.
    apply in_map_iff in He as (k & <- & Hk). apply in_seq in Hk. lia.
  - intros e e' He He' L. apply (Permutation_in _ P) in He. apply (Permutation_in _ P) in He'.
    clear P N Ln l. revert I. generalize 0%nat as n. revert He He'.
    induction S as [|o out So IH F]; intros He He' n I; [destruct He|]. cbn in I. injection I as I0 I1.
    rewrite Forall_forall in F.
    assert (Gt : forall x, In x out -> ev_id o < ev_id x).
    { intros x Hx. apply (in_map ev_id) in Hx. rewrite I1 in Hx. apply in_map_iff in Hx as (k & Ek & Hk).
      apply in_seq in Hk. lia. }
    destruct He as [<-|He], He' as [<-|He']; [lia | apply F, He' | specialize (Gt _ He); lia|].
    apply (IH He He' (S n)). exact I1.
Qed.

(** ** C12-C15 *)

Lemma presses_shown b b' :
  reachable b -> get_skill_timing b = Ok b' ->
  exists slog tlog d, rotation_played b slog tlog /\ shows_presses b b' (slog ++ tlog) d
    /\ (b_fight_start b <> None -> d = 0).
Proof.
  intros R H. apply run_spec in H; [|apply reachable_dots, R].
  destruct H as (slog & tlog & q2 & autos & d & H). cbv zeta in H. exists slog, tlog, d.
  destruct H as (H1 & _ & _ & _ & H2 & _ & _ & H3 & _). split; [exact H1|]. split; [exact H3|].
  intros N. unfold moves in H2. destruct (b_fight_start b); [exact H2 | congruence].
Qed.

Lemma Forall2_in_r {A B} (R : A -> B -> Prop) l m y : Forall2 R l m -> In y m -> exists x, In x l /\ R x y.
Proof.
  induction 1 as [|a b l m H F IH]; [intros []|]; intros [<-|Hy]; [exists a; split; [left; reflexivity | exact H]|].
  destruct (IH Hy) as (x & Hx & Rx). exists x. split; [right; exact Hx | exact Rx].
Qed.
Lemma played_skill b slog tlog p : rotation_played b slog tlog -> In p (slog ++ tlog) -> In (pl_skill p) (skills_of b).
Proof.
  intros (S1 & _ & (order & P & _ & T) & _) H. unfold skills_of. apply in_or_app. apply in_app_or in H as [H|H].
  - left. destruct (Forall2_in_r _ _ _ _ S1 H) as (x & Hx & (-> & _)). apply in_map, Hx.
  - right. destruct (Forall2_in_r _ _ _ _ T H) as (x & Hx & (_ & -> & _)). apply in_map.
    apply (Permutation_in _ (Permutation_sym P)), Hx.
Qed.
Lemma played_timing b slog tlog p spec :
  rotation_played b slog tlog -> In p (slog ++ tlog) -> pl_timing p = Some spec ->
  exists m, get_timing_spec (pl_skill p) m = Ok (Some spec).
Proof.
  intros (_ & _ & _ & W & _) H E. rewrite Forall_forall in W. destruct (W p H) as (W1 & _).
  exists (pl_modifier p). rewrite W1, E. reflexivity.
Qed.
Lemma played_locks b slog tlog : rotation_played b slog tlog -> nonneg_locks b -> locks_nonneg slog.
Proof.
  intros R N p spec Hp E. assert (Hp' : In p (slog ++ tlog)) by (apply in_or_app; left; exact Hp).
  destruct (played_timing _ _ _ _ _ R Hp' E) as (m & G). eapply N; [eapply played_skill; eassumption | exact G].
Qed.

Lemma in_time_order_sorted l out :
  in_time_order l out -> StronglySorted (fun x y => pr_time x <= pr_time y) l -> out = l.
Proof.
  intros (S & P & F) Sl.
  revert l P F Sl. induction S as [|o out So IH Fo]; intros l P F Sl.
  - symmetry in P. apply Permutation_nil in P. congruence.
  - destruct l as [|x l]; [apply Permutation_nil in P; discriminate|].
    inversion Sl as [|? ? Sl' Fl]; subst. rewrite Forall_forall in Fo, Fl.
    assert (T : pr_time o = pr_time x).
    { assert (pr_time o <= pr_time x). { assert (Hx : In x (o :: out)) by (apply (Permutation_in _ P); left; reflexivity). destruct Hx as [->|Hx]; [lia | apply Fo, Hx]. }
      assert (pr_time x <= pr_time o). { assert (Ho : In o (x :: l)) by (apply (Permutation_in _ (Permutation_sym P)); left; reflexivity). destruct Ho as [->|Ho]; [lia | apply Fl, Ho]. }
      lia. }
    assert (E : o = x).
    { specialize (F (pr_time o)). cbn in F. rewrite <- T, !Z.eqb_refl in F. injection F as F _. exact F. }
    subst x. f_equal. apply IH; [eapply Permutation_cons_inv, P | | exact Sl'].
    intros t. specialize (F t). cbn in F. destruct (pr_time o =? t); [injection F as F; exact F | exact F].
Qed.

Lemma sequence_only b b' :
  reachable b -> get_skill_timing b = Ok b' -> b_timed b = [] -> nonneg_locks b ->
  exists slog d,
    Forall2 carries_seq (b_sequence b) slog
    /\ scheduled (b_stats b) (match b_fight_start b with Some t => t | None => 0 end) None slog
    /\ get_button_press_timing b' = map (press_earlier d) (map (press_record (st_job (b_stats b))) slog)
    /\ StronglySorted (fun p q => pl_time p <= pl_time q) slog.
Proof.
  intros R H N L. destruct (presses_shown b b' R H) as (slog & tlog & d & Pl & Sh & _). pose proof Pl as (P1 & P2 & (order & P3 & _ & P4) & _ & P5 & _).
  rewrite N in P3. apply Permutation_nil in P3. subst order. inversion P4; subst tlog. rewrite app_nil_r in *.
  assert (So : StronglySorted (fun p q => pl_time p <= pl_time q) slog).
  { eapply scheduled_ready; [exact P2 | exact P5|]. eapply played_locks; [exact Pl | exact L]. }
  exists slog, d. split; [exact P1|]. split; [exact P2|]. split; [|exact So].
  apply in_time_order_sorted; [exact Sh|]. apply StronglySorted_map. cbn. apply StronglySorted_map. cbn.
  clear - So. induction So as [|p l S IH F]; constructor; [exact IH|]. eapply Forall_impl; [|exact F]. cbn. intros; lia.
Qed.

Lemma gcd_gap b slog tlog p q :
  rotation_played b slog tlog -> consecutive_gcds slog p q ->
  exists spec r, pl_timing p = Some spec /\ is_recast_time (b_stats b) spec (pl_buffs p) (pl_debuffs p) r
    /\ pl_time p + r <= pl_time q.
Proof.
  intros (_ & S & _) (pre & mid & post & E & G1 & G2 & M).
  eapply scheduled_gap; eassumption.
Qed.

Lemma press_times_kept b b' slog tlog d :
  shows_presses b b' (slog ++ tlog) d ->
  Permutation (map pr_time (get_button_press_timing b')) (map (fun p => pl_time p - d) (slog ++ tlog)).
Proof.
  intros (_ & P & _). apply (Permutation_map pr_time) in P. rewrite <- P, !map_map. reflexivity.
Qed.

Lemma timed_presses b slog tlog :
  rotation_played b slog tlog ->
  Permutation (map (press_record (st_job (b_stats b))) tlog) (map (asked_press (st_job (b_stats b))) (b_timed b)).
Proof.
  intros (_ & _ & (order & P & _ & C) & _).
  assert (E : map (press_record (st_job (b_stats b))) tlog = map (asked_press (st_job (b_stats b))) order).
  { clear P. induction C as [|x p l m (C1 & C2 & C3 & C4 & _) F IH]; [reflexivity|]. cbn [map]. rewrite IH. f_equal.
    unfold press_record, asked_press. rewrite C1, C2, C3, C4. reflexivity. }
  rewrite E. apply Permutation_map. symmetry. exact P.
Qed.
Lemma timed_in_order b slog tlog :
  rotation_played b slog tlog -> StronglySorted (fun p q => pl_time p <= pl_time q) tlog.
Proof.
  intros (_ & _ & (order & _ & S & C) & _). induction C as [|x p l m C1 F IH]; [constructor|].
  inversion S as [|? ? S1 F1]; subst. constructor; [apply IH, S1|]. apply Forall_forall. intros q Hq.
  destruct (Forall2_in_r _ _ _ _ F Hq) as (y & Hy & (Ey & _)). rewrite Forall_forall in F1. specialize (F1 y Hy).
  destruct C1 as (-> & _). rewrite Ey. exact F1.
Qed.

Lemma all_presses_once b b' :
  reachable b -> get_skill_timing b = Ok b' ->
  exists slog tlog d, rotation_played b slog tlog
    /\ (b_fight_start b <> None -> d = 0)
    /\ StronglySorted (fun x y => pr_time x <= pr_time y) (get_button_press_timing b')
    /\ Permutation (get_button_press_timing b')
         (map (press_earlier d) (map (press_record (st_job (b_stats b))) slog ++ map (asked_press (st_job (b_stats b))) (b_timed b)))
    /\ StronglySorted (fun p q => pl_time p <= pl_time q) tlog.
Proof.
  intros R H. destruct (presses_shown b b' R H) as (slog & tlog & d & Pl & (S & P & _) & D).
  exists slog, tlog, d. split; [exact Pl|]. split; [exact D|]. split; [exact S|].
  split; [|eapply timed_in_order, Pl]. rewrite <- P. apply Permutation_map. rewrite map_app.
  apply Permutation_app_head. apply (timed_presses _ _ _ Pl).
Qed.

(** ** C14 *)

Lemma timeline_shown b b' :
  reachable b -> get_skill_timing b = Ok b' ->
  exists slog tlog extra d, rotation_played b slog tlog
    /\ shows_timeline b b' (flat_map press_entries (slog ++ tlog) ++ extra) d
    /\ (b_fight_start b <> None -> d = 0).
Proof.
  intros R H. apply run_spec in H; [|apply reachable_dots, R].
  destruct H as (slog & tlog & q2 & autos & d & H). cbv zeta in H. eexists slog, tlog, _, d.
  destruct H as (H1 & _ & _ & _ & H2 & H4 & _). split; [exact H1|]. split; [exact H4|].
  intros N. unfold moves in H2. destruct (b_fight_start b); [exact H2 | congruence].
Qed.
Lemma press_order b slog tlog p :
  rotation_played b slog tlog -> nonneg_delays b -> In p (slog ++ tlog) ->
  pl_time p <= pl_snapshot p <= pl_application p.
Proof.
  intros R N H. apply played_order.
  - destruct R as (_ & _ & _ & _ & C & _). rewrite Forall_forall in C. apply C, H.
  - intros spec E. destruct (played_timing _ _ _ _ _ R H E) as (m & G). eapply N; [eapply played_skill; eassumption | exact G].
Qed.
Lemma ignore_cast b slog tlog p :
  rotation_played b slog tlog -> In p (slog ++ tlog) -> sm_ignore_cast_times (pl_modifier p) = true ->
  pl_cast p = 0 /\ pl_snapshot p = pl_time p.
Proof.
  intros (_ & _ & _ & W & _) H E. rewrite Forall_forall in W. destruct (W p H) as (_ & C & _).
  unfold is_cast_time in C. rewrite E in C. split; [exact C|]. unfold pl_snapshot. rewrite C. reflexivity.
Qed.
Lemma ignore_delay p :
  sm_ignore_application_delay (pl_modifier p) = true -> pl_application p = pl_time p + pl_cast p.
Proof. unfold pl_application. intros ->. lia. Qed.

(** ** C16, C17 *)

Lemma first_ticks_model snap : first_ticks snap (dot_first_tick snap).
Proof.
  unfold first_ticks. destruct snap as [s0|]; [|reflexivity]. intros o Ho Hb a Ha. apply dot_first_tick_server; assumption.
Qed.
Lemma small_first snap l x :
  small_times snap l -> In x l -> app_time (snd x) <= dot_first_tick snap (app_time (snd x)).
Proof.
  intros [->|H] Hx; [cbn; lia|]. apply dot_first_tick_ge. specialize (H x Hx). lia.
Qed.

Lemma last_of_entries log q2 :
  foldM api_add (flat_map press_entries log) q_init = Ok q2 ->
  latest (map entry (flat_map press_entries log)) (get_last_event_time q2).
Proof.
  intros H. apply adds_bag in H. cbn in H. pose proof (get_last_event_spec q2) as L. unfold latest in *.
  destruct (get_last_event_time q2) as [t|].
  - destruct L as ((e & He & Ht) & M). split.
    + exists e. split; [apply (Permutation_in _ H), He | exact Ht].
    + intros e' t' He'. apply M. apply (Permutation_in _ (Permutation_sym H)), He'.
  - rewrite L in H. apply Permutation_nil in H. exact H.
Qed.

Lemma dots_shown b b' :
  built b -> get_skill_timing b = Ok b' ->
  exists slog tlog ticks autos d last first,
    rotation_played b slog tlog
    /\ shows_timeline b b' (flat_map press_entries (slog ++ tlog) ++ ticks ++ autos) d
    /\ (b_fight_start b <> None -> d = 0)
    /\ (b_autos b = false -> autos = [])
    /\ first_ticks (b_snap_dots b) first
    /\ (b_ignore_trailing b = false -> last = None)
    /\ (b_ignore_trailing b = true -> latest (map entry (flat_map press_entries (slog ++ tlog))) last)
    /\ (distinguishable (flat_map press_dots (slog ++ tlog)) ->
        small_times (b_snap_dots b) (flat_map press_dots (slog ++ tlog)) ->
        exists ks, effects_of (flat_map press_dots (slog ++ tlog)) ks
          /\ all_ticks first last (flat_map press_dots (slog ++ tlog)) ks ticks).
Proof.
  intros B H. apply run_spec in H; [|apply reachable_dots, built_reachable, B].
  destruct H as (slog & tlog & q2 & autos & d & H). cbv zeta in H.
  destruct H as (H1 & Q2 & H2 & H3 & H4 & H5 & _). destruct (built_fresh b B) as (Bd & _). rewrite Bd in *.
  eexists slog, tlog, _, autos, d, (if b_ignore_trailing b then get_last_event_time q2 else None), (dot_first_tick (b_snap_dots b)).
  split; [exact H1|]. split; [exact H5|]. split; [|split; [exact H3|split; [apply first_ticks_model|split; [|split]]]].
  - intros N. unfold moves in H4. destruct (b_fight_start b); [exact H4 | congruence].
  - intros ->. reflexivity.
  - intros ->. apply last_of_entries, Q2.
  - intros Di Sm. apply all_dot_calls_spec; [exact Di | apply log_dots_dot|]. intros x Hx. eapply small_first; eassumption.
Qed.

(** ** C18 *)

Lemma entry_time_tick fu target n x t : ev_time (entry (tick_entry fu target n x t)) = t.
Proof.
  unfold entry, anon, stored_event, tick_entry, plain_add, ev_time; cbn.
  destruct (Z.eq_dec t (app_snapshot x)); [congruence | reflexivity].
Qed.

Lemma window_ticks_last server last w :
  window_ticks server last w = filter (fun x => negb (is_trailing last (snd x))) (window_ticks server None w).
Proof.
  destruct w as [[[s e] sn] pm]. unfold window_ticks.
  induction (range_step (dot_first_tick server s) e 3000) as [|t l IH]; [reflexivity|]. cbn [filter map is_trailing negb snd].
  destruct (negb (is_trailing last t)); cbn [map]; rewrite IH; reflexivity.
Qed.
Lemma dot_ticks_last server last dur h :
  dot_ticks server last dur h = filter (fun x => negb (is_trailing last (snd x))) (dot_ticks server None dur h).
Proof.
  unfold dot_ticks. induction (consolidate (base_dot_timings dur h)) as [|w ws IH]; [reflexivity|]. cbn [flat_map].
  rewrite filter_app, <- IH, <- window_ticks_last. reflexivity.
Qed.
Lemma tick_entries_filter fu target last l : forall n,
  StronglySorted (fun x y : dot_entry * Z => snd x < snd y) l ->
  map entry (tick_entries fu target n (filter (fun x => negb (is_trailing (Some last) (snd x))) l))
  = filter (not_after last) (map entry (tick_entries fu target n l)).
Proof.
  induction l as [|[x t] l IH]; intros n S; [reflexivity|]. inversion S as [|? ? S1 F]; subst.
  cbn [filter snd tick_entries map].
  assert (Nt : forall n x t, not_after last (entry (tick_entry fu target n x t)) = negb (is_trailing (Some last) t)).
  { intros n' x' t'. unfold not_after. match goal with |- context [match ev_secondary ?e with _ => _ end] => change (match ev_secondary e with Some t0 => t0 | None => ev_primary e end) with (ev_time e) end. rewrite entry_time_tick. unfold is_trailing.
    rewrite negb_andb, negb_involutive, Z.ltb_antisym, negb_involutive. reflexivity. }
  rewrite Nt. destruct (negb (is_trailing (Some last) t)) eqn:E.
  - cbn [tick_entries map]. rewrite IH by exact S1. reflexivity.
  - assert (A : forall y, In y l -> negb (is_trailing (Some last) (snd y)) = false).
    { intros y Hy. rewrite Forall_forall in F. specialize (F y Hy). cbn [snd] in F. unfold is_trailing in *.
      rewrite negb_false_iff, andb_true_iff, Z.ltb_lt in *. split; [apply E | lia]. }
    rewrite filter_none by exact A. cbn. symmetry. apply filter_none. intros e He.
    revert n He. clear - A Nt. generalize 1 as dn. intros dn n. generalize (n + dn) as k.
    induction l as [|[y u] l IHl]; intros k He; cbn in He; [destruct He|]. destruct He as [<-|He].
    + rewrite Nt. apply (A (y, u)). left; reflexivity.
    + eapply IHl; [|exact He]. intros z Hz. apply A. right; exact Hz.
Qed.

Lemma all_dot_calls_last server last l :
  distinguishable l -> (forall x, In x l -> fu_dot (snd (fst x)) <> None) ->
  (forall x, In x l -> app_time (snd x) <= dot_first_tick server (app_time (snd x))) ->
  map entry (all_dot_calls server (Some last) (fold_left record_dot l []))
  = filter (not_after last) (map entry (all_dot_calls server None (fold_left record_dot l []))).
Proof.
  intros D Hd Hf. pose proof (record_dots_for l D) as (I1 & I2 & _).
  assert (A : forall kv, In kv (fold_left record_dot l []) -> forall x, In x (snd kv) -> snd x = history (fst kv) (fst x) l).
  { intros [k v] H [fu h] Hx. destruct (I2 k v) as (_ & B); [apply in_dget; assumption|]. apply (B _ _ Hx). }
  clear I1 I2. unfold all_dot_calls. induction (fold_left record_dot l []) as [|[k v] d IH]; [reflexivity|].
  cbn [flat_map]. rewrite !map_app, filter_app, IH by (intros kv H; apply A; right; exact H). f_equal. cbn [fst snd].
  assert (Av : forall x, In x v -> snd x = history k (fst x) l) by (apply (A (k, v)); left; reflexivity).
  clear - Av Hf. induction v as [|[fu h] v IH]; [reflexivity|]. cbn [flat_map].
  rewrite !map_app, filter_app, IH by (intros x H; apply Av; right; exact H). f_equal.
  specialize (Av (fu, h) (or_introl eq_refl)). cbn [fst snd] in Av. subst h.
  unfold dot_calls. cbn [fst snd]. destruct (fu_dot fu) as [dur|]; [|reflexivity].
  rewrite dot_ticks_last. apply tick_entries_filter. apply dot_ticks_sorted. intros e He. apply in_history in He.
  apply in_map_iff in He as (y & <- & Hy). apply Hf, Hy.
Qed.

Lemma no_windows_timeline b b' entries d :
  no_windows b -> shows_timeline b b' entries d -> Forall plain entries ->
  Permutation (timeline b') (map (earlier d) (map entry entries)).
Proof.
  intros W (evs & D & P) Pl. rewrite P. apply downtimed_id in D; [subst evs; reflexivity | exact W|].
  rewrite !Forall_map. eapply Forall_impl; [|exact Pl]. intros c (_ & T & _). exact T.
Qed.

Lemma trailing_dropped b b0 b1 :
  built b -> b_autos b = false -> b_fight_start b <> None -> no_windows b ->
  get_skill_timing (set_ignore_trailing_dots b false) = Ok b0 ->
  get_skill_timing (set_ignore_trailing_dots b true) = Ok b1 ->
  exists slog tlog ticks first,
    rotation_played b slog tlog
    /\ (distinguishable (flat_map press_dots (slog ++ tlog)) ->
        small_times (b_snap_dots b) (flat_map press_dots (slog ++ tlog)) ->
        (exists ks, effects_of (flat_map press_dots (slog ++ tlog)) ks
            /\ all_ticks first None (flat_map press_dots (slog ++ tlog)) ks ticks)
        /\ Permutation (timeline b0) (map entry (flat_map press_entries (slog ++ tlog)) ++ map entry ticks)
        /\ forall last, latest (map entry (flat_map press_entries (slog ++ tlog))) (Some last) ->
             Permutation (timeline b1)
               (map entry (flat_map press_entries (slog ++ tlog)) ++ filter (not_after last) (map entry ticks))).
Proof.
  intros B Au Fs W H0 H1. destruct (built_fresh b B) as (Bd & _).
  assert (R0 := H0). assert (R1 := H1).
  rewrite get_skill_timing_eq in H0. rewrite get_skill_timing_eq in H1. cbv zeta in H0, H1.
  set (c0 := with_windows (set_ignore_trailing_dots b false) (process_downtime_windows (set_ignore_trailing_dots b false))) in *.
  set (c1 := with_windows (set_ignore_trailing_dots b true) (process_downtime_windows (set_ignore_trailing_dots b true))) in *.
  assert (PE : presses_pass c1 = presses_pass c0) by reflexivity. rewrite PE in H1. clear PE.
  destruct (presses_pass c0) as [[[[q2 d2] pr2] sp2]|e] eqn:E; [|discriminate H0]. cbn [bind] in H0, H1.
  apply presses_pass_spec in E as (slog & tlog & _ & R & Q2 & D2 & P2 & S2).
  change (b_dots c0) with (b_dots b) in D2. rewrite Bd in D2.
  assert (R' : rotation_played b slog tlog) by exact R.
  set (l := flat_map press_dots (slog ++ tlog)) in *.
  exists slog, tlog, (all_dot_calls (b_snap_dots b) None d2), (dot_first_tick (b_snap_dots b)).
  split; [exact R'|]. intros Di Sm. fold l in Di, Sm |- *. subst d2.
  assert (Hf : forall x, In x l -> app_time (snd x) <= dot_first_tick (b_snap_dots b) (app_time (snd x))) by (intros x Hx; eapply small_first; eassumption).
  assert (Hd : forall x, In x l -> fu_dot (snd (fst x)) <> None) by apply log_dots_dot.
  split; [apply all_dot_calls_spec; assumption|].
  assert (Tail : forall c c' , b_autos c = false -> b_fight_start c = b_fight_start b -> b_snap_dots c = b_snap_dots b ->
     (forall t, windows_for (b_windows c) t = []) ->
     timing_tail c (q2, fold_left record_dot l [], pr2, sp2) = Ok c' ->
     Permutation (timeline c') (map entry (flat_map press_entries (slog ++ tlog)) ++
        map entry (all_dot_calls (b_snap_dots b) (if b_ignore_trailing c then get_last_event_time q2 else None) (fold_left record_dot l [])))).
  { intros c c' A F Sn Wc H. unfold timing_tail in H. rewrite A, F, Sn in H.
    rewrite process_all_dots_eq in H by (apply record_dots_ok; [intros kv x [] | exact Hd]).
    inv_bind H. rename a into q3. cbn [bind] in H. destruct (b_fight_start b) as [t0|] eqn:Ef; [|congruence]. cbn [bind] in H.
    inv_bind H. rename a into q6. injection H as <-. unfold timeline. cbn [b_queue with_results].
    assert (G2 : good q2).
    { eapply adds_good; [exact Q2 | | exact good_init]. destruct R' as (_ & _ & _ & Wp & _). eapply log_entries_plain; exact Wp. }
    assert (G3 : good q3) by (eapply adds_good; [exact E | apply all_dot_calls_plain | exact G2]).
    apply remove_downtime_spec in E0 as (_ & (evs & Dt & P6) & _); [|exact G3].
    apply downtimed_id in Dt; [|exact Wc | apply good_fresh_anon, G3]. subst evs. rewrite P6.
    apply adds_bag in E. apply adds_bag in Q2. rewrite E, Q2. reflexivity. }
  assert (W0 : forall t, windows_for (b_windows c0) t = []).
  { intros t. unfold c0. cbn [b_windows with_windows]. rewrite windows_for_of. apply W. }
  assert (W1 : forall t, windows_for (b_windows c1) t = []).
  { intros t. unfold c1. cbn [b_windows with_windows]. rewrite windows_for_of. apply W. }
  split.
  - apply (Tail c0); [exact Au | reflexivity | reflexivity | exact W0 | exact H0].
  - intros last La. apply (Tail c1) in H1; [|exact Au | reflexivity | reflexivity | exact W1].
    change (b_ignore_trailing c1) with true in H1. cbv iota in H1.
    assert (El : get_last_event_time q2 = Some last).
    { pose proof (last_of_entries _ _ Q2) as L2. destruct (get_last_event_time q2) as [t|]; cbn in L2, La.
      - destruct L2 as ((e1 & He1 & T1) & M1), La as ((e2 & He2 & T2) & M2). f_equal.
        specialize (M1 _ _ He2 T2). specialize (M2 _ _ He1 T1). lia.
      - destruct La as ((e2 & He2 & _) & _). rewrite L2 in He2. destruct He2. }
    rewrite El in H1. rewrite H1, all_dot_calls_last by assumption. reflexivity.
Qed.

(** ** C19 *)

Lemma auto_loop_start b t fuel : forall stamps au delay wd last qu snapshot ind,
  auto_loop fuel (starting b t) stamps au delay wd last qu snapshot ind
  = auto_loop fuel b stamps au delay wd last qu snapshot ind.
Proof.
  induction fuel as [|fuel IH]; intros; cbn [auto_loop]; [reflexivity|]. destruct (negb _); [reflexivity|].
  destruct (of_option IndexError _) as [[t0 target]|e]; [|reflexivity]. cbn [bind].
  destruct (q_add_new _ _ _ _ _ _ _ _) as [q'|e]; [|reflexivity]. cbn [bind].
  destruct (speed_timeline q') as [tl|e]; [|reflexivity]. cbn [bind].
  change (applicable_effects (starting b t)) with (applicable_effects b).
  change (b_default_target (starting b t)) with (b_default_target b).
  destruct (applicable_effects b tl snapshot au [b_default_target b]) as [[bu de]|e]; [|reflexivity]. cbn [bind].
  change (get_no_auto_periods (starting b t)) with (get_no_auto_periods b).
  destruct (get_no_auto_periods b) as [ps|e]; [|reflexivity]. cbn [bind].
  change (b_windows (starting b t)) with (b_windows b). change (b_stats (starting b t)) with (b_stats b).
  destruct (next_auto_time _ _ _) as [[z|]|e]; [|reflexivity | reflexivity]. cbn [bind]. apply IH.
Qed.
Lemma add_autos_start b t sp last qu : add_autos (starting b t) sp last qu = add_autos b sp last qu.
Proof.
  unfold add_autos. change (b_stats (starting b t)) with (b_stats b). change (b_library (starting b t)) with (b_library b).
  destruct (shorten_sequence _) as [sh|e]; [|reflexivity]. cbn [bind].
  destruct (auto_skill_of _ _) as [au|e]; [|reflexivity]. cbn [bind].
  destruct (get_first_damage_time qu) as [fd|e]; [|reflexivity]. cbn [bind].
  destruct (of_option TypeError fd) as [fd'|e]; [|reflexivity]. cbn [bind].
  destruct (auto_delay_of au) as [de|e]; [|reflexivity]. cbn [bind].
  match goal with |- context [of_option TypeError ?x] => destruct (of_option TypeError x) as [la|e]; [|reflexivity] end. cbn [bind].
  apply auto_loop_start.
Qed.

Definition damage_known (qu : queue) : Prop :=
  forall e, In e (q_heap qu) -> exists r, get_damage_spec (ev_skill e) (ev_modifier e) = Ok r.

Lemma first_damage_known l : forall acc r,
  foldM first_damage_step l acc = Ok r ->
  forall e, In e l -> exists x, get_damage_spec (ev_skill e) (ev_modifier e) = Ok x.
Proof.
  induction l as [|a l IH]; intros acc r; cbn [foldM]; intros H e []; inv_bind H.
  - subst a. unfold first_damage_step in E. inv_bind E. eauto.
  - eapply IH; eassumption.
Qed.
Lemma filterM_total w e l :
  (exists r, get_damage_spec (ev_skill e) (ev_modifier e) = Ok r) -> exists r, filterM (keep_target w e) l = Ok r.
Proof.
  intros (r & H). induction l as [|x l (r' & IH)]; cbn; [eauto|]. unfold keep_target at 1. rewrite H. cbn [bind]. rewrite IH. cbn. eauto.
Qed.
Lemma remove_total w qu : good qu -> damage_known qu -> exists qu', remove_damage_during_downtime w qu = Ok qu'.
Proof.
  intros (I & _) K. unfold remove_damage_during_downtime. destruct (q_drain_total qu I) as (evs & E). rewrite E. cbn [bind].
  apply q_drain_spec in E as (P & _); [|exact I].
  assert (K' : forall e, In e evs -> exists r, get_damage_spec (ev_skill e) (ev_modifier e) = Ok r).
  { intros e He. apply K. apply (Permutation_in _ (Permutation_sym P)), He. }
  clear - K'. generalize q_init as qu. induction evs as [|e evs IH]; intros qu; cbn [foldM]; [eauto|].
  unfold downtime_event at 1. destruct (filterM_total w e (ev_targets e) (K' e (or_introl eq_refl))) as (r & ->). cbn [bind].
  assert (G : exists q', (match r with [] => Ok qu | _ => q_add_new qu (ev_priority e) (ev_primary e) (ev_secondary e) (ev_skill e) (ev_modifier e) (ev_snap e) r end) = Ok q').
  { destruct r; [eauto|]. unfold q_add_new. rewrite q_add_eq. apply api_add_total. }
  destruct G as (q' & G).
  assert (G' : (match r with [] => Ok qu | _ :: _ => q_add_new qu (ev_priority e) (ev_primary e) (ev_secondary e) (ev_skill e) (ev_modifier e) (ev_snap e) r end) = Ok q') by exact G.
  rewrite G'. cbn [bind]. apply IH. intros e' He'. apply K'. right; exact He'.
Qed.
Lemma remove_known w qu qu' : good qu -> remove_damage_during_downtime w qu = Ok qu' -> damage_known qu.
Proof.
  intros (I & F) H. unfold remove_damage_during_downtime in H. inv_bind H. apply q_drain_spec in E as (P & _); [|exact I].
  assert (Fa : Forall fresh a) by (rewrite <- P; exact F).
  intros e He. apply (Permutation_in _ P) in He. clear P F I. revert H. generalize q_init as q0.
  induction a as [|x a IH]; intros q0 H; [destruct He|]. inversion Fa as [|? ? Fx Fa']; subst. cbn [foldM] in H. inv_bind H.
  destruct He as [<-|He]; [|eapply IH; eassumption].
  unfold downtime_event in E. inv_bind E. destruct Fx as (_ & T & _). destruct (ev_targets x) as [|t ts]; [congruence|].
  cbn [filterM] in E0. inv_bind E0. unfold keep_target in E1. inv_bind E1. eauto.
Qed.

Lemma sort_presses_earlier d pr : sort_by pr_time (map (press_earlier d) pr) = map (press_earlier d) (sort_by pr_time pr).
Proof. unfold sort_by. symmetry. apply sort_map. intros a b. cbn. destruct (Z.ltb_spec (pr_time a) (pr_time b)), (Z.ltb_spec (pr_time a - d) (pr_time b - d)); try reflexivity; lia. Qed.

Lemma moves_perm s l m d : Permutation l m -> moves s l d -> moves s m d.
Proof.
  intros P. unfold moves. destruct s; [auto|]. intros [(X & Y)|(-> & X)].
  - left. split.
    + destruct X as (e & c & He & Hc). exists e, c. split; [|exact Hc]. eapply Permutation_in; [exact P | exact He].
    + intros e c t He. apply Y. eapply Permutation_in; [apply Permutation_sym, P | exact He].
  - right. split; [reflexivity|]. intros e c He. apply X. eapply Permutation_in; [apply Permutation_sym, P | exact He].
Qed.

(** Queues before the last two steps. *)
Lemma good_q4 b sp q2 d2 slog tlog q3 q4 last :
  rotation_played b slog tlog -> foldM api_add (flat_map press_entries (slog ++ tlog)) q_init = Ok q2 ->
  dots_ok d2 -> process_all_dots (b_snap_dots b) d2 last q2 = Ok q3 ->
  (if b_autos b then add_autos b sp last q3 else Ok q3) = Ok q4 -> good q4.
Proof.
  intros (_ & _ & _ & Wp & _) Q2 Dk Q3 Q4. rewrite process_all_dots_eq in Q3 by exact Dk.
  assert (G2 : good q2) by (eapply adds_good; [exact Q2 | eapply log_entries_plain; exact Wp | exact good_init]).
  assert (G3 : good q3) by (eapply adds_good; [exact Q3 | apply all_dot_calls_plain | exact G2]).
  destruct (b_autos b).
  - apply add_autos_adds in Q4 as (calls & C1 & C2). eapply adds_good; [exact C1 | | exact G3].
    eapply Forall_impl; [|exact C2]. intros c. apply auto_entry_plain.
  - injection Q4 as <-. exact G3.
Qed.

Lemma shifted b b1 :
  reachable b -> b_fight_start b = None -> no_windows b -> get_skill_timing b = Ok b1 ->
  exists b0 d, get_skill_timing (starting b (Some 0)) = Ok b0
    /\ moves None (timeline b0) d
    /\ Permutation (timeline b1) (map (earlier d) (timeline b0))
    /\ get_button_press_timing b1 = map (press_earlier d) (get_button_press_timing b0).
Proof.
  intros R Fs W H. rewrite get_skill_timing_eq in H. rewrite get_skill_timing_eq. cbv zeta in H |- *.
  set (w := process_downtime_windows b) in *.
  change (process_downtime_windows (starting b (Some 0))) with w.
  change (with_windows (starting b (Some 0)) w) with (starting (with_windows b w) (Some 0)).
  assert (Wf : forall t, windows_for w t = []) by (intros t; unfold w; rewrite windows_for_of; apply W).
  set (c := with_windows b w) in *.
  assert (PE : presses_pass (starting c (Some 0)) = presses_pass c).
  { unfold c, presses_pass, sequence_log. cbn [b_fight_start starting with_windows]. rewrite Fs. reflexivity. }
  rewrite PE. inv_bind H. destruct a as [[[q2 d2] pr2] sp2]. rewrite E. cbn [bind].
  apply presses_pass_spec in E as (slog & tlog & _ & Pl & Q2 & D2 & P2 & S2).
  assert (Dk2 : dots_ok d2) by (rewrite D2; apply record_dots_ok; [exact (reachable_dots b R) | apply log_dots_dot]).
  unfold timing_tail in *. change (b_ignore_trailing (starting c (Some 0))) with (b_ignore_trailing c).
  change (b_snap_dots (starting c (Some 0))) with (b_snap_dots c). change (b_autos (starting c (Some 0))) with (b_autos c).
  change (b_fight_start (starting c (Some 0))) with (Some 0). change (b_windows (starting c (Some 0))) with w.
  change (b_windows c) with w in H. change (b_fight_start c) with (b_fight_start b) in H. rewrite Fs in H.
  set (last := if b_ignore_trailing c then get_last_event_time q2 else None) in *.
  inv_bind H. rename a into q3. rename E into Q3. rewrite Q3. cbn [bind].
  rewrite add_autos_start. inv_bind H. rename a into q4. rename E into Q4. rewrite Q4. cbn [bind].
  assert (G4 : good q4) by (eapply (good_q4 c); [exact Pl | exact Q2 | exact Dk2 | exact Q3 | exact Q4]).
  inv_bind H. destruct a as [q5 pr5]. rename E into Sh.
  assert (K4 : damage_known q4).
  { unfold shift_timelines in Sh. inv_bind Sh. intros e He. eapply first_damage_known; [exact E | exact He]. }
  apply shift_timelines_spec in Sh as (d & M & G5 & B5 & ->); [|exact G4].
  inv_bind H. rename a into q6. rename E into Q6. injection H as <-.
  destruct (remove_total w q4 G4 K4) as (q6' & Q6'). rewrite Q6'. cbn [bind]. eexists _, d. split; [reflexivity|].
  apply remove_downtime_spec in Q6 as (_ & (evs & Dt & P6) & _); [|exact G5].
  apply remove_downtime_spec in Q6' as (_ & (evs' & Dt' & P6') & _); [|exact G4].
  apply downtimed_id in Dt; [|exact Wf | apply good_fresh_anon, G5].
  apply downtimed_id in Dt'; [|exact Wf | apply good_fresh_anon, G4]. subst evs evs'.
  unfold timeline. cbn [b_queue with_results]. split; [eapply moves_perm; [apply Permutation_sym, P6' | exact M]|].
  split; [rewrite P6, B5; apply Permutation_map, Permutation_sym, P6'|].
  unfold get_button_press_timing. cbn [b_press with_results]. rewrite !sort_by_idem. apply sort_presses_earlier.
Qed.

Lemma earliest_shifted l d : earliest_damage l d -> earliest_damage (map (earlier d) l) 0.
Proof.
  assert (T : forall e t, effect_time (earlier d e) t <-> effect_time e (t + d)).
  { intros e t. rewrite !effect_time_ev. unfold ev_time, earlier; cbn. destruct (ev_secondary e); lia. }
  intros ((e & c & He & Hc & Ht) & M). split.
  - exists (earlier d e), c. split; [apply in_map, He|]. split; [exact Hc|]. apply T. exact Ht.
  - intros e' c' t He' Hc' Ht'. apply in_map_iff in He' as (x & <- & Hx). apply T in Ht'.
    specialize (M x c' _ Hx Hc' Ht'). lia.
Qed.

(** ** C20 *)

Lemma downtime_removed b b1 :
  reachable b -> b_autos b = false -> get_skill_timing b = Ok b1 ->
  exists b0, get_skill_timing (no_downtime b) = Ok b0
    /\ (exists evs, downtimed (windows_of b) (timeline b0) evs /\ Permutation (timeline b1) evs)
    /\ get_button_press_timing b1 = get_button_press_timing b0.
Proof.
  intros R Au H. rewrite get_skill_timing_eq in H. rewrite get_skill_timing_eq. cbv zeta in H |- *.
  set (w := process_downtime_windows b) in *. set (w0 := process_downtime_windows (no_downtime b)).
  set (c := with_windows b w) in *.
  change (with_windows (no_downtime b) w0) with (with_windows b w0). set (c0 := with_windows b w0).
  assert (Wf : forall t, windows_for w0 t = []).
  { intros t. unfold w0. rewrite windows_for_of. unfold windows_of, no_downtime. cbn. match goal with |- (if ?x then _ else _) = _ => destruct x end; reflexivity. }
  change (presses_pass c0) with (presses_pass c).
  inv_bind H. destruct a as [[[q2 d2] pr2] sp2]. rewrite E. cbn [bind].
  apply presses_pass_spec in E as (slog & tlog & _ & Pl & Q2 & D2 & P2 & S2).
  assert (Dk2 : dots_ok d2) by (rewrite D2; apply record_dots_ok; [exact (reachable_dots b R) | apply log_dots_dot]).
  unfold timing_tail in *. change (b_ignore_trailing c0) with (b_ignore_trailing c).
  change (b_snap_dots c0) with (b_snap_dots c). change (b_autos c0) with (b_autos c).
  change (b_fight_start c0) with (b_fight_start c). change (b_windows c0) with w0.
  change (b_windows c) with w in H.
  set (last := if b_ignore_trailing c then get_last_event_time q2 else None) in *.
  inv_bind H. rename a into q3. rename E into Q3. rewrite Q3. cbn [bind].
  assert (Auc : b_autos c = false) by exact Au. rewrite Auc in *. cbn [bind] in *.
  assert (G3 : good q3) by (eapply (good_q4 c sp2); [exact Pl | exact Q2 | exact Dk2 | exact Q3 | rewrite Auc; reflexivity]).
  inv_bind H. destruct a as [q5 pr5]. rename E into Sh. rewrite Sh. cbn [bind].
  assert (G5 : good q5).
  { destruct (b_fight_start c); [injection Sh as <- <-; exact G3|]. apply shift_timelines_spec in Sh as (d & _ & G5 & _); [exact G5 | exact G3]. }
  inv_bind H. rename a into q6. rename E into Q6. injection H as <-.
  destruct (remove_total w0 q5 G5 (remove_known _ _ _ G5 Q6)) as (q6' & Q6'). rewrite Q6'. cbn [bind]. eexists. split; [reflexivity|].
  apply remove_downtime_spec in Q6 as (_ & (evs & Dt & P6) & _); [|exact G5].
  apply remove_downtime_spec in Q6' as (_ & (evs' & Dt' & P6') & _); [|exact G5].
  apply downtimed_id in Dt'; [|exact Wf | apply good_fresh_anon, G5]. subst evs'.
  unfold timeline. cbn [b_queue with_results]. split; [|reflexivity].
  assert (Wd : forall l l', downtimed (windows_for w) l l' -> downtimed (windows_of b) l l').
  { assert (Sp : forall e x, spared (windows_for w) e x <-> spared (windows_of b) e x).
    { intros e x. unfold spared, w. rewrite windows_for_of. reflexivity. }
    assert (K : forall e l l', kept (spared (windows_for w) e) l l' -> kept (spared (windows_of b) e) l l').
    { intros e l l'. induction 1; constructor; try assumption; [apply Sp; assumption|]. rewrite <- Sp. assumption. }
    induction 1; [apply dt_nil | apply dt_gone; auto | apply dt_stays; auto]. }
  apply Wd in Dt. destruct (downtimed_perm _ _ _ (Permutation_sym P6') _ Dt) as (m' & Dm & Pm).
  exists m'. split; [exact Dm | rewrite P6; exact Pm].
Qed.
