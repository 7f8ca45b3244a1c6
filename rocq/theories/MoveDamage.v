(** * Damage moves with the timeline *)

From Coq Require Import ZArith QArith List String Bool Lia.
From Verif Require Import Base BaseFacts Heap Strings Types Lookup Stats Library StatusEffect JobResource Combo
  Channeling Float Events Rotation DamageBuild Damage Relabel SpecTimeline SpecMove MoveFacts MoveRun.
Import ListNotations.
Open Scope string_scope.
Open Scope Z_scope.

Section Move.
Variable d : Z.

Lemma inst_lt_later a b : inst_lt (instance_later d a) (instance_later d b) = inst_lt a b.
Proof. unfold inst_lt. cbn [instance_later di_time di_skill di_modifier di_effects di_id di_target]. rewrite eqb_later, ltb_later. reflexivity. Qed.
Lemma target_time_later n t i : target_time n (t + d) i = target_time n t i + d.
Proof. unfold target_time. destruct (1 <? Z.of_nat n); lia. Qed.

Definition on_tk_m (x : trackers * modifier) : trackers * modifier := (tk_later d (fst x), snd x).
Lemma combo_positional_later tk t s m p : combo_and_positional (tk_later d tk) (t + d) s m p = rmap on_tk_m (combo_and_positional tk t s m p).
Proof.
  unfold combo_and_positional. destruct p; [reflexivity|]. cbn [tk_later tk_combo tk_se tk_jr]. rewrite compile_combo_later.
  destruct (compile_and_update_combo _ _ _ _) as [[ct c]|]; [|reflexivity]. cbn [rmap bind fst snd].
  destruct (add_positional _ _); reflexivity.
Qed.
Lemma combo_positional_lasting tk t s m p tk' m' : tk_lasting tk -> combo_and_positional tk t s m p = Ok (tk', m') -> tk_lasting tk'.
Proof.
  intros L E. unfold combo_and_positional in E. destruct p; [injection E as <- _; exact L|].
  apply bind_ok in E as ([ct c] & _ & E). apply bind_ok in E as (m1 & _ & E). injection E as <- _. exact L.
Qed.
Lemma conditional_later tk t s m k : tk_lasting tk -> resource_conditional (tk_later d tk) (t + d) s m k = on_tk_m (resource_conditional tk t s m k).
Proof.
  intros L. unfold resource_conditional. destruct k; [reflexivity|]. cbn [tk_later tk_combo tk_se tk_jr].
  rewrite compile_resources_later by exact L. destruct (compile_job_resources _ _ _) as [jr c]. reflexivity.
Qed.
Lemma conditional_lasting tk t s m k : tk_lasting tk -> tk_lasting (fst (resource_conditional tk t s m k)).
Proof.
  intros L. unfold resource_conditional. destruct k; [exact L|]. pose proof (compile_resources_lasting (tk_jr tk) t (sk_name s) L) as K.
  destruct (compile_job_resources (tk_jr tk) t (sk_name s)) as [jr c]. exact K.
Qed.
Lemma added_later tk t s m k : resources_added (tk_later d tk) (t + d) s m k = rmap (tk_later d) (resources_added tk t s m k).
Proof.
  unfold resources_added. destruct k; [reflexivity|]. cbn [tk_later tk_combo tk_se tk_jr]. rewrite add_resource_later.
  destruct (add_resource _ _ _ _); reflexivity.
Qed.
Lemma added_lasting tk t s m k tk' : tk_lasting tk -> resources_added tk t s m k = Ok tk' -> tk_lasting tk'.
Proof.
  intros L E. unfold resources_added in E. destruct k; [injection E as <-; exact L|]. apply bind_ok in E as (jr & J & E). injection E as <-.
  eapply add_resource_lasting; [exact L|exact J].
Qed.

Definition on_out (x : se_tracker * list instance * modifier) : se_tracker * list instance * modifier :=
  (se_later d (fst (fst x)), map (instance_later d) (snd (fst x)), snd x).
Lemma apply_target_later n t s m bu sn id x it :
  apply_target n (t + d) s m bu sn id (on_out x) it = rmap on_out (apply_target n t s m bu sn id x it).
Proof.
  destruct x as [[se out] m']. destruct it as [i tg]. unfold apply_target, on_out at 1. cbn [fst snd]. cbv zeta.
  assert (E : match sn with SEff e => Ok (se_later d se, e, target_modifier n m i)
              | SFlag _ => let* (se', (e, c)) := compile_debuffs (se_later d se) (t + d) s tg in Ok (se', e, add_to_condition (target_modifier n m i) c) end
            = rmap (fun y : se_tracker * status_effects * modifier => (se_later d (fst (fst y)), snd (fst y), snd y))
              match sn with SEff e => Ok (se, e, target_modifier n m i)
              | SFlag _ => let* (se', (e, c)) := compile_debuffs se t s tg in Ok (se', e, add_to_condition (target_modifier n m i) c) end).
  { destruct sn; [|reflexivity]. rewrite compile_debuffs_later. destruct (compile_debuffs se t s tg) as [[se' [e c]]|]; reflexivity. }
  rewrite E. clear E. destruct (match sn with SEff e => _ | SFlag _ => _ end) as [[[se' de] m1]|]; [|reflexivity]. cbn [rmap bind fst snd].
  destruct (get_damage_spec s m1) as [[sp|]|]; [|reflexivity|reflexivity]. cbn [bind]. rewrite target_time_later.
  change (mkInst (target_time n t i + d) s m1 (bu, de) id tg) with (instance_later d (mkInst (target_time n t i) s m1 (bu, de) id tg)).
  rewrite (heappush_map (instance_later d) inst_lt inst_lt inst_lt_later). destruct (heappush inst_lt out _); reflexivity.
Qed.
Definition on_app (x : trackers * list instance) : trackers * list instance := (tk_later d (fst x), map (instance_later d) (snd x)).
Lemma application_later tk out e :
  tk_lasting tk -> application_event (tk_later d tk) (map (instance_later d) out) (event_later d e) = rmap on_app (application_event tk out e).
Proof.
  intros L. unfold application_event. cbv zeta.
  cbn [event_later ev_primary ev_skill ev_modifier ev_jr_cond ev_jr_added ev_combo_cond ev_snap ev_targets ev_id].
  rewrite conditional_later by exact L. destruct (resource_conditional tk (ev_primary e) (ev_skill e) (ev_modifier e) (ev_jr_cond e)) as [tk1 m1].
  unfold on_tk_m. cbn [fst snd]. rewrite added_later. destruct (resources_added _ _ _ _ _) as [tk2|]; [|reflexivity]. cbn [rmap bind].
  rewrite combo_positional_later. destruct (combo_and_positional _ _ _ _ _) as [[tk3 m2]|]; [|reflexivity]. cbn [rmap bind]. unfold on_tk_m. cbn [fst snd].
  assert (E : match fst (ev_snap e) with SEff b => Ok (tk_se (tk_later d tk3), b, m2)
              | SFlag _ => let* (se', (b, c)) := compile_buffs (tk_se (tk_later d tk3)) (ev_primary e + d) (ev_skill e) in Ok (se', b, add_to_condition m2 c) end
            = rmap (fun y : se_tracker * status_effects * modifier => (se_later d (fst (fst y)), snd (fst y), snd y))
              match fst (ev_snap e) with SEff b => Ok (tk_se tk3, b, m2)
              | SFlag _ => let* (se', (b, c)) := compile_buffs (tk_se tk3) (ev_primary e) (ev_skill e) in Ok (se', b, add_to_condition m2 c) end).
  { destruct (fst (ev_snap e)); [|reflexivity]. cbn [tk_later tk_se]. rewrite compile_buffs_later.
    destruct (compile_buffs _ _ _) as [[se' [eb ec]]|]; reflexivity. }
  rewrite E. clear E. destruct (match fst (ev_snap e) with SEff b => _ | SFlag _ => _ end) as [[[se1 bu] m3]|]; [|reflexivity]. cbn [rmap bind fst snd].
  set (n := List.length (ev_targets e)).
  pose proof (foldM_map (apply_target n (ev_primary e) (ev_skill e) m3 bu (snd (ev_snap e)) (ev_id e))
    (apply_target n (ev_primary e + d) (ev_skill e) m3 bu (snd (ev_snap e)) (ev_id e)) on_out (enumerate (ev_targets e))
    (fun a b => apply_target_later n (ev_primary e) (ev_skill e) m3 bu (snd (ev_snap e)) (ev_id e) a b) (se1, out, m3)) as K.
  unfold on_out at 1 in K. cbn [fst snd] in K. rewrite K. clear K.
  destruct (foldM _ (enumerate (ev_targets e)) (se1, out, m3)) as [[[se2 out'] m4]|]; [|reflexivity]. cbn [rmap bind on_out fst snd].
  rewrite add_status_later. destruct (add_to_status_effects _ _ _ _ _); reflexivity.
Qed.
Lemma application_lasting tk out e tk' out' : tk_lasting tk -> application_event tk out e = Ok (tk', out') -> tk_lasting tk'.
Proof.
  intros L E. unfold application_event in E. cbv zeta in E.
  pose proof (conditional_lasting tk (ev_primary e) (ev_skill e) (ev_modifier e) (ev_jr_cond e) L) as L1.
  destruct (resource_conditional tk _ _ _ _) as [tk1 m1]. cbn [fst] in L1.
  apply bind_ok in E as (tk2 & A & E). apply (added_lasting _ _ _ _ _ _ L1) in A. apply bind_ok in E as ([tk3 m2] & C & E).
  apply (combo_positional_lasting _ _ _ _ _ _ _ A) in C. apply bind_ok in E as ([[se1 bu] m3] & _ & E).
  apply bind_ok in E as ([[se2 o2] m4] & _ & E). apply bind_ok in E as (se3 & _ & E). injection E as <- _. exact C.
Qed.

Definition on_snap (x : se_tracker * queue) : se_tracker * queue := (se_later d (fst x), queue_later d (snd x)).
Lemma snapshot_target_later n t app p s m sn id jrc cc x it :
  snapshot_target n (t + d) (app + d) (p + 1000 * d) s m sn id jrc cc (on_snap x) it
  = rmap on_snap (snapshot_target n t app p s m sn id jrc cc x it).
Proof.
  destruct x as [se qu]. destruct it as [i tg]. unfold snapshot_target, on_snap at 1. cbn [fst snd]. cbv zeta.
  set (m0 := target_modifier n m i).
  assert (E : match snd sn with SFlag true => let* (se', (e, c)) := compile_debuffs (se_later d se) (t + d) s tg in Ok (se', SEff e, add_to_condition m0 c)
              | x => Ok (se_later d se, x, m0) end
            = rmap (fun y : se_tracker * snap * modifier => (se_later d (fst (fst y)), snd (fst y), snd y))
              match snd sn with SFlag true => let* (se', (e, c)) := compile_debuffs se t s tg in Ok (se', SEff e, add_to_condition m0 c)
              | x => Ok (se, x, m0) end).
  { destruct (snd sn) as [[|]|]; [|reflexivity|reflexivity]. rewrite compile_debuffs_later. destruct (compile_debuffs se t s tg) as [[se' [e c]]|]; reflexivity. }
  rewrite E. clear E. destruct (match snd sn with SFlag _ => _ | SEff _ => _ end) as [[[se' sn1] m1]|]; [|reflexivity]. cbn [rmap bind fst snd].
  rewrite (q_add_later d qu p (target_time n app i) None); [|reflexivity|apply target_time_later|reflexivity].
  destruct (q_add qu _ _ _ _ _ _ _ _ _ _ _); reflexivity.
Qed.
Definition on_tk_q (x : trackers * queue) : trackers * queue := (tk_later d (fst x), queue_later d (snd x)).
Lemma snapshot_later tk qu e app :
  tk_lasting tk -> snapshot_event (tk_later d tk) (queue_later d qu) (event_later d e) (app + d) = rmap on_tk_q (snapshot_event tk qu e app).
Proof.
  intros L. unfold snapshot_event. cbv zeta.
  cbn [event_later ev_primary ev_skill ev_modifier ev_jr_cond ev_jr_added ev_combo_cond ev_snap ev_targets ev_id ev_priority].
  assert (E : match fst (ev_snap e) with SFlag true => let* (se', (b, c)) := compile_buffs (tk_se (tk_later d tk)) (ev_primary e + d) (ev_skill e) in Ok (se', SEff b, add_to_condition (ev_modifier e) c)
              | x => Ok (tk_se (tk_later d tk), x, ev_modifier e) end
            = rmap (fun y : se_tracker * snap * modifier => (se_later d (fst (fst y)), snd (fst y), snd y))
              match fst (ev_snap e) with SFlag true => let* (se', (b, c)) := compile_buffs (tk_se tk) (ev_primary e) (ev_skill e) in Ok (se', SEff b, add_to_condition (ev_modifier e) c)
              | x => Ok (tk_se tk, x, ev_modifier e) end).
  { destruct (fst (ev_snap e)) as [[|]|]; [|reflexivity|reflexivity]. cbn [tk_later tk_se]. rewrite compile_buffs_later.
    destruct (compile_buffs _ _ _) as [[se' [eb ec]]|]; reflexivity. }
  rewrite E. clear E. destruct (match fst (ev_snap e) with SFlag _ => _ | SEff _ => _ end) as [[[se1 sn0] m1]|]; [|reflexivity]. cbn [rmap bind fst snd].
  change (mkTrackers (se_later d se1) (tk_jr (tk_later d tk)) (tk_combo (tk_later d tk))) with (tk_later d (mkTrackers se1 (tk_jr tk) (tk_combo tk))).
  set (skip := ev_jr_cond e || negb (sk_job_resources_snapshot (ev_skill e))).
  rewrite conditional_later by exact L. destruct (resource_conditional (mkTrackers se1 _ _) _ _ m1 skip) as [tk2 m2]. unfold on_tk_m. cbn [fst snd].
  rewrite combo_positional_later. destruct (combo_and_positional _ _ _ _ _) as [[tk3 m3]|]; [|reflexivity]. cbn [rmap bind]. unfold on_tk_m. cbn [fst snd].
  rewrite added_later. destruct (resources_added _ _ _ _ _) as [tk4|]; [|reflexivity]. cbn [rmap bind].
  replace (time_to_prio (app + d) + (time_to_prio (ev_primary e + d) - (ev_priority e + 1000 * d)))
    with (time_to_prio app + (time_to_prio (ev_primary e) - ev_priority e) + 1000 * d) by (unfold time_to_prio; lia).
  set (np := time_to_prio app + _). set (n := List.length (ev_targets e)).
  pose proof (foldM_map (snapshot_target n (ev_primary e) app np (ev_skill e) m3 (sn0, snd (ev_snap e)) (ev_id e) (negb skip) (negb (ev_combo_cond e)))
    (snapshot_target n (ev_primary e + d) (app + d) (np + 1000 * d) (ev_skill e) m3 (sn0, snd (ev_snap e)) (ev_id e) (negb skip) (negb (ev_combo_cond e)))
    on_snap (enumerate (ev_targets e))
    (fun a b => snapshot_target_later n (ev_primary e) app np (ev_skill e) m3 (sn0, snd (ev_snap e)) (ev_id e) (negb skip) (negb (ev_combo_cond e)) a b)
    (tk_se tk4, qu)) as K.
  unfold on_snap at 1 in K. cbn [fst snd] in K. cbn [tk_later tk_se tk_jr tk_combo]. rewrite K. clear K.
  destruct (foldM _ (enumerate (ev_targets e)) (tk_se tk4, qu)) as [[se2 qu']|]; reflexivity.
Qed.
Lemma snapshot_lasting tk qu e app tk' qu' : tk_lasting tk -> snapshot_event tk qu e app = Ok (tk', qu') -> tk_lasting tk'.
Proof.
  intros L E. unfold snapshot_event in E. cbv zeta in E. apply bind_ok in E as ([[se1 sn0] m1] & _ & E).
  pose proof (conditional_lasting (mkTrackers se1 (tk_jr tk) (tk_combo tk)) (ev_primary e) (ev_skill e) m1
    (ev_jr_cond e || negb (sk_job_resources_snapshot (ev_skill e))) L) as L1.
  destruct (resource_conditional _ _ _ m1 _) as [tk2 m2]. cbn [fst] in L1. apply bind_ok in E as ([tk3 m3] & C & E).
  apply (combo_positional_lasting _ _ _ _ _ _ _ L1) in C. apply bind_ok in E as (tk4 & A & E). apply (added_lasting _ _ _ _ _ _ C) in A.
  apply bind_ok in E as ([se2 qq] & _ & E). injection E as <- _. exact A.
Qed.

Definition on_all (x : trackers * queue * list instance) : trackers * queue * list instance :=
  (tk_later d (fst (fst x)), queue_later d (snd (fst x)), map (instance_later d) (snd x)).
Lemma step_later tk qu out e :
  tk_lasting tk -> damage_step (tk_later d tk) (queue_later d qu) (map (instance_later d) out) (event_later d e) = rmap on_all (damage_step tk qu out e).
Proof.
  intros L. unfold damage_step. cbv zeta. change (ev_primary (event_later d e)) with (ev_primary e + d). cbn [tk_later tk_se tk_jr tk_combo].
  rewrite expire_later. set (se := expire_status_effects (ev_primary e) (tk_se tk)).
  change (mkTrackers (se_later d se) (jr_later d (tk_jr tk)) (ct_later d (tk_combo tk))) with (tk_later d (mkTrackers se (tk_jr tk) (tk_combo tk))).
  change (ev_secondary (event_later d e)) with (match ev_secondary e with Some t => Some (t + d) | None => None end).
  destruct (ev_secondary e) as [app|].
  - rewrite snapshot_later by exact L. destruct (snapshot_event _ qu e app) as [[tk' qu']|]; reflexivity.
  - rewrite application_later by exact L. destruct (application_event _ out e) as [[tk' o']|]; reflexivity.
Qed.
Lemma step_lasting tk qu out e tk' qu' out' : tk_lasting tk -> damage_step tk qu out e = Ok (tk', qu', out') -> tk_lasting tk'.
Proof.
  intros L E. unfold damage_step in E. cbv zeta in E. destruct (ev_secondary e) as [app|]; apply bind_ok in E as ([tk1 x] & A & E); injection E as <- _ _.
  - eapply snapshot_lasting; [|exact A]. exact L.
  - eapply application_lasting; [|exact A]. exact L.
Qed.
Lemma loop_later fuel : forall tk qu out,
  tk_lasting tk -> damage_loop fuel (tk_later d tk) (queue_later d qu) (map (instance_later d) out) = rmap on_all (damage_loop fuel tk qu out).
Proof.
  induction fuel as [|n IH]; intros tk qu out L; cbn [damage_loop];
    replace (q_is_empty (queue_later d qu)) with (q_is_empty qu) by (destruct qu as [[|x h] k]; reflexivity);
    destruct (q_is_empty qu); try reflexivity.
  unfold q_get_next. change (q_heap (queue_later d qu)) with (map (event_later d) (q_heap qu)).
  rewrite (heappop_map (event_later d) event_lt event_lt (event_lt_later d)).
  destruct (heappop event_lt (q_heap qu)) as [[e h]|]; [|reflexivity]. cbn [rmap bind fst snd].
  change (mkQueue (map (event_later d) h) (q_next_id (queue_later d qu))) with (queue_later d (mkQueue h (q_next_id qu))).
  rewrite step_later by exact L. destruct (damage_step tk _ out e) as [[[tk' qu'] out']|] eqn:S; [|reflexivity]. cbn [rmap bind on_all fst snd].
  apply IH. eapply step_lasting; [exact L|exact S].
Qed.
Lemma fuel_later qu : damage_fuel (queue_later d qu) = damage_fuel qu.
Proof.
  unfold damage_fuel. change (q_heap (queue_later d qu)) with (map (event_later d) (q_heap qu)).
  induction (q_heap qu) as [|e h IH]; [reflexivity|]. cbn [map fold_right]. rewrite IH. f_equal.
  unfold event_weight. cbn [event_later ev_secondary ev_targets]. destruct (ev_secondary e); reflexivity.
Qed.
Lemma instances_later st lib tk qu :
  lasting_resources lib (st_job st) -> db_init st lib = Ok tk ->
  get_damage_instances tk (queue_later d qu) = rmap on_all (get_damage_instances tk qu).
Proof.
  intros L I. unfold db_init in I. apply bind_ok in I as (prio & _ & I).
  pose proof (new_trackers_lasting _ _ _ _ L I) as LT. unfold get_damage_instances. rewrite fuel_later.
  pose proof (loop_later (damage_fuel qu) tk qu [] LT) as K. rewrite (new_trackers_later d _ _ _ _ I) in K. cbn [map] in K. rewrite K. clear K.
  destruct (damage_loop _ tk qu []) as [[[tk' qu'] out]|]; [|reflexivity]. cbn [rmap bind on_all fst snd]. f_equal. unfold on_all. cbn [fst snd].
  f_equal. apply (sort_by_map d (instance_later d) di_time di_time). reflexivity.
Qed.

(** ** The simulator *)
Definition row_later (r : row) : row :=
  mkRow (r_base r) (r_crit_rate r) (r_crit_bonus r) (r_dh_rate r) (r_trait r) (r_mult r) (r_time r + d) (r_potency r) (r_cond r)
    (r_effects r) (r_class r).
Definition tracker_later (t : tracker) : tracker := mkTracker (map row_later (dt_rows t)) (dt_finalized t).
Definition simulator_later (s : simulator) : simulator :=
  mkSimulator (map (instance_later d) (ds_instances s)) (tracker_later (ds_tracker s)) (ds_stats s).
Lemma row_of_later st x : row_of st (instance_later d x) = rmap row_later (row_of st x).
Proof.
  unfold row_of. cbn [instance_later di_skill di_modifier di_effects di_time]. cbv zeta.
  destruct (get_base_damage _ _ _ _) as [b|]; [|reflexivity]. cbn [bind]. destruct (of_option AssertionError b) as [b0|]; [|reflexivity]. cbn [bind].
  destruct (get_damage_spec _ _) as [sp|]; [|reflexivity]. cbn [bind]. destruct (of_option AttributeError sp) as [p|]; [|reflexivity]. cbn [bind].
  destruct (crit_rates_and_bonuses _ _ _ _) as [[[dh cr] bo]|]; reflexivity.
Qed.
Lemma compile_later st t x : compile_instance st (tracker_later t) (instance_later d x) = rmap tracker_later (compile_instance st t x).
Proof.
  unfold compile_instance. rewrite row_of_later. destruct (row_of st x) as [r|]; [|reflexivity]. cbn [rmap bind]. unfold dt_add.
  cbn [tracker_later dt_rows dt_finalized]. rewrite map_length. destruct (dt_finalized t); [reflexivity|].
  destruct (CAPACITY <=? _); [reflexivity|]. cbn [rmap]. unfold tracker_later. cbn [dt_rows dt_finalized]. rewrite map_app. reflexivity.
Qed.
Lemma ds_init_later st l : ds_init st (map (instance_later d) l) = rmap simulator_later (ds_init st l).
Proof.
  unfold ds_init. cbv zeta. rewrite (sort_by_map d (instance_later d) di_time di_time) by reflexivity.
  change dt_init with (tracker_later dt_init) at 1.
  rewrite (foldM_map2 (compile_instance st) (compile_instance st) tracker_later (instance_later d) (fun _ => True)
    (fun a x _ => compile_later st a x) (fun _ _ _ _ _ => I) _ dt_init I).
  destruct (foldM (compile_instance st) _ dt_init); reflexivity.
Qed.
Lemma mapi_later {B} (f g : nat -> row -> B) l : (forall i r, f i (row_later r) = g i r) -> forall i, mapi_from f i (map row_later l) = mapi_from g i l.
Proof. intros H. induction l as [|r l IH]; intros i; cbn [map mapi_from]; [reflexivity|]. rewrite H, IH. reflexivity. Qed.
Lemma fight_later l : fight_time (map (instance_later d) l) = fight_time l.
Proof.
  destruct l as [|x l]; [reflexivity|]. unfold fight_time. cbn [map].
  change (instance_later d x :: map (instance_later d) l) with (map (instance_later d) (x :: l)).
  assert (X : last (map (instance_later d) (x :: l)) (instance_later d x) = instance_later d (last (x :: l) x)).
  { generalize x at 2 4 as z. revert x. induction l as [|y l IH]; intros x z; [reflexivity|]. cbn [map last] in *. apply (IH y z). }
  rewrite X. cbn [instance_later di_time]. do 2 f_equal. lia.
Qed.
Lemma simulator_same sim n u u' : run_simulator (simulator_later sim) n u u' = run_simulator sim n u u'.
Proof.
  unfold run_simulator, expected_and_variance, damage_ranges, compute_damage. cbn [simulator_later ds_tracker ds_instances tracker_later dt_rows dt_finalized].
  destruct (dt_finalized _); [|reflexivity]. cbn [bind].
  rewrite (mapi_later (fun i r => row_outcomes r (u i)) (fun i r => row_outcomes r (u i))) by reflexivity.
  rewrite (mapi_later (fun i r => map (fun j => sample_cell r (u' i j)) (seq 0 n)) (fun i r => map (fun j => sample_cell r (u' i j)) (seq 0 n))) by reflexivity.
  rewrite fight_later, !map_map. reflexivity.
Qed.
End Move.

Lemma report_moved d b b' n u u' :
  moved d b b' -> plain_dots b -> lasting_resources (b_library b) (st_job (b_stats b)) -> report_of b' n u u' = report_of b n u u'.
Proof.
  intros (M & S & W) P R. pose proof (run_moved d b b' M P R S W) as G. unfold report_of.
  destruct M as (E1 & E2 & _). rewrite E1, E2. destruct (get_skill_timing b) as [r|e]; [|rewrite G; reflexivity].
  destruct G as (r' & -> & ((_ & _ & _ & _ & _ & _ & _ & _ & _ & _ & _ & Q & _) & _)). cbn [bind].
  destruct (db_init _ _) as [tk|] eqn:D; [|reflexivity]. cbn [bind]. rewrite Q, (instances_later d _ _ _ _ R D).
  destruct (get_damage_instances tk (b_queue r)) as [[[tk' qu'] out]|]; [|reflexivity]. cbn [rmap bind on_all fst snd].
  rewrite ds_init_later. destruct (ds_init _ out); [|reflexivity]. cbn [rmap bind]. apply simulator_same.
Qed.

(** ** The calls that build a rotation *)
Lemma init_moved d st lib snap au ig t w w' tg b :
  rb_init st lib snap au ig (Some t) w tg = Ok b -> windows_moved d (init_downtime_windows w) (init_downtime_windows w') ->
  exists b', rb_init st lib snap au ig (Some (t + d)) w' tg = Ok b' /\ moved d b b'.
Proof.
  unfold rb_init. intros H W. destruct (get_status_effect_priority lib (st_job st)) as [prio|]; [|discriminate H]. cbn [bind] in *.
  injection H as <-. eexists. split; [reflexivity|]. split; [|split; [exists t; split; reflexivity|exact W]].
  repeat (split; [reflexivity|]). reflexivity.
Qed.
Lemma presses_add d b b' t t' nm m jb tg :
  presses_moved d b b' -> qtrunc (fmul (q 1000) t') = qtrunc (fmul (q 1000) t) + d ->
  match add b t nm m jb tg with
  | Ok r => exists r', add b' t' nm m jb tg = Ok r' /\ presses_moved d r r'
      /\ b_fight_start r = b_fight_start b /\ b_fight_start r' = b_fight_start b' /\ b_windows r = b_windows b /\ b_windows r' = b_windows b'
  | Err e => add b' t' nm m jb tg = Err e
  end.
Proof.
  intros (E1 & E2 & E3 & E4 & E5 & E8 & E9 & E10 & E11 & E12 & E13 & E14 & E15 & E16) T.
  unfold add, process_targets, job_or_default, modifier_or_default, get_default_skill_modifier. rewrite T, E1, E2, E8, E16.
  destruct (get_skill _ _ _) as [s|]; [|reflexivity]. cbn [bind]. eexists. split; [reflexivity|].
  split; [|repeat split; reflexivity]. unfold presses_moved. cbn [b_stats b_library b_snap_dots b_autos b_ignore_trailing b_fight_start b_windows
    b_default_target b_priority b_timed b_sequence b_dots b_press b_queue b_stamps b_targets].
  rewrite E10, map_app. cbn [map]. repeat (split; [first [reflexivity|assumption]|]). reflexivity.
Qed.
Lemma presses_add_next d b b' nm m jb n tg :
  presses_moved d b b' ->
  match add_next b nm m jb n tg with
  | Ok r => exists r', add_next b' nm m jb n tg = Ok r' /\ presses_moved d r r'
      /\ b_fight_start r = b_fight_start b /\ b_fight_start r' = b_fight_start b' /\ b_windows r = b_windows b /\ b_windows r' = b_windows b'
  | Err e => add_next b' nm m jb n tg = Err e
  end.
Proof.
  intros (E1 & E2 & E3 & E4 & E5 & E8 & E9 & E10 & E11 & E12 & E13 & E14 & E15 & E16).
  unfold add_next, process_targets, job_or_default, modifier_or_default, get_default_skill_modifier. rewrite E1, E2, E8, E16.
  destruct (get_skill _ _ _) as [s|]; [|reflexivity]. cbn [bind]. eexists. split; [reflexivity|].
  split; [|repeat split; reflexivity]. unfold presses_moved. cbn [b_stats b_library b_snap_dots b_autos b_ignore_trailing b_fight_start b_windows
    b_default_target b_priority b_timed b_sequence b_dots b_press b_queue b_stamps b_targets].
  rewrite E11. repeat (split; [first [reflexivity|assumption]|]). reflexivity.
Qed.
Lemma moved_add d b b' t t' nm m jb tg :
  moved d b b' -> qtrunc (fmul (q 1000) t') = qtrunc (fmul (q 1000) t) + d ->
  match add b t nm m jb tg with
  | Ok r => exists r', add b' t' nm m jb tg = Ok r' /\ moved d r r'
  | Err e => add b' t' nm m jb tg = Err e
  end.
Proof.
  intros (M & S & W) T. pose proof (presses_add d b b' t t' nm m jb tg M T) as K. destruct (add b t nm m jb tg) as [r|]; [|exact K].
  destruct K as (r' & K & N & F & F' & V & V'). exists r'. split; [exact K|]. split; [exact N|]. rewrite F, F', V, V'. split; assumption.
Qed.
Lemma moved_add_next d b b' nm m jb n tg :
  moved d b b' ->
  match add_next b nm m jb n tg with
  | Ok r => exists r', add_next b' nm m jb n tg = Ok r' /\ moved d r r'
  | Err e => add_next b' nm m jb n tg = Err e
  end.
Proof.
  intros (M & S & W). pose proof (presses_add_next d b b' nm m jb n tg M) as K. destruct (add_next b nm m jb n tg) as [r|]; [|exact K].
  destruct K as (r' & K & N & F & F' & V & V'). exists r'. split; [exact K|]. split; [exact N|]. rewrite F, F', V, V'. split; assumption.
Qed.

Lemma instances_move d st lib tk qu :
  lasting_resources lib (st_job st) -> db_init st lib = Ok tk ->
  match get_damage_instances tk qu with
  | Ok (_, _, out) => exists tk' qu', get_damage_instances tk (queue_later d qu) = Ok (tk', qu', map (instance_later d) out)
  | Err e => get_damage_instances tk (queue_later d qu) = Err e
  end.
Proof.
  intros L I. rewrite (instances_later d st lib tk qu L I). destruct (get_damage_instances tk qu) as [[[tk' qu'] out]|]; [|reflexivity].
  cbn [rmap on_all fst snd]. eexists _, _. reflexivity.
Qed.
Lemma run_zeroed_timeline d b b' r :
  presses_moved d b b' -> plain_dots b -> lasting_resources (b_library b) (st_job (b_stats b)) ->
  b_fight_start b = None -> b_fight_start b' = None -> b_sequence b = [] -> b_windows b' = b_windows b ->
  (b_autos b = false \/ b_windows b = WTuple []) ->
  get_skill_timing b = Ok r ->
  (exists e c, In e (timeline r) /\ damages e c) ->
  exists r', get_skill_timing b' = Ok r' /\ b_press r' = b_press r /\ b_queue r' = b_queue r.
Proof.
  intros M P R F F' S W A G (e & c & I & sp & D & _). apply (run_zeroed d b b' M P R r F F' S W A G).
  apply in_map_iff in I as (x & <- & I). exists x, sp. split; assumption.
Qed.
