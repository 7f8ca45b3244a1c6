(** * Processing presses: the model's passes are the timeline entries of SpecPlay.v *)

From Coq Require Import ZArith QArith List String Bool Lia Permutation Sorted.
From Verif Require Import Base Float Heap Strings Types Lookup StatusEffect JobResource Combo
  Channeling Stats Library Events Rotation BaseFacts HeapFacts SpecQueue EventsFacts SpecPlay.
Import ListNotations.
Open Scope Z_scope.

Definition record_dot (d : dots) (x : dot_application) : dots :=
  let '(target, fu, e) := x in add_dot_target fu e d target.

(** What a follow-up does to the trackers. *)
Definition fu_trackers (app : Z) (targets : list string) (tk : trackers) (fu : follow_up) : res trackers :=
  match fu_dot fu with
  | Some _ => Ok tk
  | None =>
      let* tg := if fu_primary_only fu
                 then let* h := of_option IndexError (hd_error targets) in Ok [h]
                 else Ok targets in
      let* se := add_to_status_effects (tk_se tk) (app + fu_delay fu) (fu_skill fu) default_modifier tg in
      let* jr := add_resource (tk_jr tk) (app + fu_delay fu) (fu_skill fu) default_modifier in
      Ok (mkTrackers se jr (tk_combo tk))
  end.

(** [process_skill] without the queue and the dots. *)
Definition skill_effect (st : stats) (tk : trackers) (p0 : played) : res (played * trackers) :=
  let s := pl_skill p0 in let m := pl_modifier p0 in
  let* ts := get_timing_spec s m in
  let* cast := get_cast_time st ts m (pl_buffs p0) in
  let* (snapshot, application) := skill_times ts m (pl_time p0) cast in
  let* se := add_to_status_effects (tk_se tk) application s m (pl_targets p0) in
  let* jr := add_resource (tk_jr tk) snapshot s m in
  let* fus := get_follow_up_skills s m in
  let p := mkPlayed (pl_time p0) s (pl_asked p0) (pl_job p0) (pl_targets p0) m (pl_buffs p0)
             (pl_debuffs p0) ts cast fus in
  let* tk' := foldM (fu_trackers application (pl_targets p0)) fus (mkTrackers se jr (tk_combo tk)) in
  Ok (p, tk').

Lemma api_adds_app l1 l2 qu :
  foldM api_add (l1 ++ l2) qu = let* q' := foldM api_add l1 qu in foldM api_add l2 q'.
Proof. apply foldM_app. Qed.

(** An [add] that cannot fail commutes with anything. *)
Lemma add_comm {A} c qu (m : res A) (B : Type) (k : queue -> A -> res B) :
  (let* q' := api_add qu c in let* a := m in k q' a) = (let* a := m in let* q' := api_add qu c in k q' a).
Proof. destruct (api_add_total qu c) as (q' & E). destruct m; cbn; rewrite ?E; reflexivity. Qed.
Lemma adds_err {A B} l qu (m : res A) (k : queue -> A -> res B) e :
  m = Err e -> (let* q' := foldM api_add l qu in let* a := m in k q' a) = Err e.
Proof. destruct (api_adds_total l qu) as (q' & E). intros ->. rewrite E. reflexivity. Qed.

Lemma follow_up_loop snapshot application targets p fus :
  pl_snapshot p = snapshot -> pl_application p = application -> pl_targets p = targets ->
  forall i qu d tk,
  foldM (process_follow_up snapshot application targets) (enum_from i fus) (mkSim qu d tk)
  = (let* tk' := foldM (fu_trackers application targets) fus tk in
     let* qu' := foldM api_add (numbered (follow_up_entries p) (i + 1) fus) qu in
     Ok (mkSim qu' (fold_left record_dot (numbered (follow_up_dots p) (i + 1) fus) d) tk')).
Proof.
  intros Hs Ha Ht. induction fus as [|fu fus IH]; intros i qu d tk; [reflexivity|].
  cbn [enum_from foldM numbered]. unfold process_follow_up at 1. unfold fu_trackers at 1.
  unfold follow_up_entries at 1. unfold follow_up_dots at 1.
  destruct (fu_dot fu) as [dur|] eqn:Fd.
  - cbn [bind si_queue si_dots si_tk app]. rewrite IH. rewrite fold_left_app.
    rewrite Hs, Ha, Ht.
    assert (E : fold_left record_dot (map (fun x => (x, fu, (snapshot, application, i + 1))) targets) d
                = fold_left (add_dot_target fu (snapshot, application, i + 1)) targets d).
    { clear. revert d. induction targets as [|x l IH]; intros d; cbn; [reflexivity | apply IH]. }
    rewrite E. reflexivity.
  - unfold process_non_dot_follow_up. cbn [si_queue si_dots si_tk].
    unfold follow_up_entry. rewrite Hs, Ha, Ht.
    unfold q_add_new, time_to_prio.
    assert (Tg : forall h, (if fu_primary_only fu then let* h := of_option IndexError (hd_error targets) in Ok [h] else Ok targets) = Ok h ->
                 (if fu_primary_only fu then firstn 1 targets else targets) = h).
    { intros h. destruct (fu_primary_only fu); [|congruence]. destruct targets; cbn; [discriminate | congruence]. }
    destruct (if fu_primary_only fu then let* h := of_option IndexError (hd_error targets) in Ok [h] else Ok targets) as [tg|e];
      [|destruct (fu_snap_buffs fu || fu_snap_debuffs fu); reflexivity].
    specialize (Tg tg eq_refl). rewrite Tg. cbn [bind app foldM].
    destruct (fu_snap_buffs fu || fu_snap_debuffs fu); unfold plain_add, both; cbn beta iota; rewrite q_add_eq;
    match goal with |- context [api_add qu ?c] => destruct (api_add_total qu c) as (q1 & Q1); rewrite Q1 end; cbn [bind];
    (destruct (add_to_status_effects (tk_se tk) (application + fu_delay fu) (fu_skill fu) default_modifier tg) as [se|e];
      [|reflexivity]); cbn [bind];
    (destruct (add_resource (tk_jr tk) (application + fu_delay fu) (fu_skill fu) default_modifier) as [jr|e];
      [|reflexivity]); cbn [bind]; rewrite IH;
    reflexivity.
Qed.

Lemma skill_times_spec ts m t cast sn ap p :
  skill_times ts m t cast = Ok (sn, ap) ->
  pl_time p = t -> pl_cast p = cast -> pl_modifier p = m -> pl_timing p = ts ->
  pl_snapshot p = sn /\ pl_application p = ap /\ (sm_ignore_application_delay m = false -> ts <> None).
Proof.
  unfold skill_times, pl_snapshot, pl_application, delay_after_cast, DAMAGE_SNAPSHOT_TIME_BEFORE_CAST_FINISHES.
  intros H -> -> -> ->. destruct (sm_ignore_application_delay m).
  - injection H as <- <-. split; [|split; [lia | discriminate]].
    destruct (Z.leb_spec cast 500); lia.
  - inv_bind H. unfold of_option in E. destruct ts as [spec|]; [|discriminate]. injection E as <-.
    rewrite (Z.add_comm (Z.opp 500) (application_delay spec)) in H. injection H as <- <-.
    split; [destruct (Z.leb_spec cast 500); lia|]. split; [|intros _; discriminate].
    destruct (Z.ltb_spec 0 cast), (Z.leb_spec cast 0); try lia.
    destruct (Z.leb_spec (application_delay spec) 500); lia.
Qed.

Lemma process_skill_eq st qu d tk p0 :
  process_skill st (mkSim qu d tk) (pl_time p0) (pl_skill p0) (pl_modifier p0) (pl_buffs p0) (pl_targets p0)
  = (let* (p, tk') := skill_effect st tk p0 in
     let* qu' := foldM api_add (press_entries p) qu in
     Ok (mkSim qu' (fold_left record_dot (press_dots p) d) tk')).
Proof.
  unfold process_skill, skill_effect.
  destruct (get_timing_spec (pl_skill p0) (pl_modifier p0)) as [ts|e]; [|reflexivity]. cbn [bind].
  destruct (get_cast_time st ts (pl_modifier p0) (pl_buffs p0)) as [cast|e]; [|reflexivity]. cbn [bind].
  destruct (skill_times ts (pl_modifier p0) (pl_time p0) cast) as [[sn ap]|e] eqn:ET; [|reflexivity]. cbn [bind].
  cbn [si_queue si_dots si_tk].
  unfold q_add_new. rewrite q_add_eq.
  match goal with |- context [api_add qu ?c] => destruct (api_add_total qu c) as (q1 & Q1); rewrite Q1 end. cbn [bind].
  destruct (add_to_status_effects (tk_se tk) ap (pl_skill p0) (pl_modifier p0) (pl_targets p0)) as [se|e]; [|reflexivity].
  cbn [bind].
  destruct (add_resource (tk_jr tk) sn (pl_skill p0) (pl_modifier p0)) as [jr|e]; [|reflexivity]. cbn [bind].
  destruct (get_follow_up_skills (pl_skill p0) (pl_modifier p0)) as [fus|e]; [|reflexivity]. cbn [bind].
  set (p := mkPlayed (pl_time p0) (pl_skill p0) (pl_asked p0) (pl_job p0) (pl_targets p0) (pl_modifier p0)
              (pl_buffs p0) (pl_debuffs p0) ts cast fus).
  destruct (skill_times_spec _ _ _ _ _ _ p ET eq_refl eq_refl eq_refl eq_refl) as (Hs & Ha & _).
  unfold enumerate. rewrite (follow_up_loop sn ap (pl_targets p0) p fus Hs Ha eq_refl).
  destruct (foldM (fu_trackers ap (pl_targets p0)) fus (mkTrackers se jr (tk_combo tk))) as [tk'|e]; [|reflexivity].
  cbn [bind]. unfold press_entries, press_dots. cbn [foldM].
  unfold main_entry, plain_add, both. rewrite Hs, Ha. cbn [pl_skill pl_modifier pl_targets p pl_follow_ups].
  unfold time_to_prio in Q1. rewrite Q1. reflexivity.
Qed.

(** ** The fields of a processed press *)

Lemma scaled_time_spec st ts base mult t :
  scaled_time st ts base mult = Ok t -> scaled st ts base [mult] t.
Proof.
  unfold scaled_time, scaled. intros H. inv_bind H. injection H as <-. exists a. split.
  - destruct (affected_by_speed_stat ts); [|congruence]. unfold get_time_using_speed_stat in E. inv_bind E.
    injection E as <-. eauto.
  - destruct (affected_by_haste_buffs ts); reflexivity.
Qed.
Lemma cast_time_spec st ts m buffs c :
  get_cast_time st ts m buffs = Ok c -> is_cast_time st m buffs ts c /\ 0 <= c.
Proof.
  unfold get_cast_time, is_cast_time. destruct (sm_ignore_cast_times m).
  - intros H; injection H as <-. split; [reflexivity | lia].
  - intros H. inv_bind H. unfold of_option in E. destruct ts as [spec|]; [|discriminate]. injection E as <-.
    inv_bind H. injection H as <-. apply scaled_time_spec in E. unfold reduce_time. split.
    + exists spec, a. split; [reflexivity|]. split; [exact E|]. destruct (ef_flat_cast buffs); [lia | reflexivity].
    + destruct (ef_flat_cast buffs); lia.
Qed.
Lemma recast_time_spec st ts buffs debuffs r :
  get_recast_time st ts buffs debuffs = Ok r -> is_recast_time st ts buffs debuffs r.
Proof.
  unfold get_recast_time, is_recast_time. intros H. inv_bind H. injection H as <-.
  match goal with |- context [?a - ef_flat_gcd buffs] => exists a end. split; [|].
  - exists a. split.
    + destruct (affected_by_speed_stat ts); [|congruence]. unfold get_time_using_speed_stat in E. inv_bind E.
      injection E as <-. eauto.
    + destruct (affected_by_haste_buffs ts); reflexivity.
  - unfold GCD_RECAST_TIME, MIN_GCD_RECAST_TIME. destruct (Z.eqb_spec (gcd_base_recast ts) 2500); lia.
Qed.

Lemma skill_effect_spec st tk p0 p tk' :
  skill_effect st tk p0 = Ok (p, tk') -> pl_targets p0 <> [] ->
  well_played st p /\ 0 <= pl_cast p
  /\ pl_time p = pl_time p0 /\ pl_skill p = pl_skill p0 /\ pl_asked p = pl_asked p0 /\ pl_job p = pl_job p0
  /\ pl_targets p = pl_targets p0 /\ pl_modifier p = pl_modifier p0 /\ pl_buffs p = pl_buffs p0
  /\ pl_debuffs p = pl_debuffs p0.
Proof.
  unfold skill_effect. intros H N. inv_bind H. inv_bind H. inv_bind H. destruct a1 as [sn ap].
  inv_bind H. inv_bind H. inv_bind H. inv_bind H. injection H as <- <-.
  destruct (cast_time_spec _ _ _ _ _ E0) as (C & P).
  cbn [pl_time pl_skill pl_asked pl_job pl_targets pl_modifier pl_buffs pl_debuffs pl_cast pl_timing pl_follow_ups].
  split; [|tauto].
  unfold well_played.
  cbn [pl_time pl_skill pl_asked pl_job pl_targets pl_modifier pl_buffs pl_debuffs pl_cast pl_timing pl_follow_ups].
  repeat split; try assumption.
  eapply (skill_times_spec _ _ _ _ _ _
    (mkPlayed (pl_time p0) (pl_skill p0) (pl_asked p0) (pl_job p0) (pl_targets p0) (pl_modifier p0)
       (pl_buffs p0) (pl_debuffs p0) a a0 a3) E1); reflexivity.
Qed.

Lemma fu_trackers_grant p fus : forall tk tk',
  foldM (fu_trackers (pl_application p) (pl_targets p)) fus tk = Ok tk' -> follow_ups_grant p tk fus tk'.
Proof.
  induction fus as [|fu fus IH]; intros tk tk'; cbn [foldM]; intros H.
  - injection H as <-. constructor.
  - inv_bind H. apply IH in H. unfold fu_trackers in E. destruct (fu_dot fu) as [d|] eqn:F.
    + injection E as <-. eapply fg_dot; eassumption.
    + inv_bind E. inv_bind E. inv_bind E. injection E as <-. eapply fg_skill; [exact F | | exact H].
      exists a1, a2. split; [|split; [exact E2 | reflexivity]].
      assert (T : (if fu_primary_only fu then firstn 1 (pl_targets p) else pl_targets p) = a0); [|rewrite T; exact E1].
      destruct (fu_primary_only fu); [|congruence]. destruct (pl_targets p); cbn in *; congruence.
Qed.
Lemma skill_effect_grants st tk p0 p tk' :
  skill_effect st tk p0 = Ok (p, tk') ->
  exists tk1, grants tk (pl_application p) (pl_snapshot p) (pl_skill p) (pl_modifier p) (pl_targets p) tk1
    /\ follow_ups_grant p tk1 (pl_follow_ups p) tk'.
Proof.
  unfold skill_effect. intros H. inv_bind H. inv_bind H. inv_bind H. destruct a1 as [sn ap].
  inv_bind H. inv_bind H. inv_bind H. inv_bind H. injection H as <- <-.
  match goal with |- exists _, grants _ (pl_application ?p) _ _ _ _ _ /\ _ => set (p1 := p) end.
  destruct (skill_times_spec _ _ _ _ _ _ p1 E1 eq_refl eq_refl eq_refl eq_refl) as (Hs & Ha & _).
  exists (mkTrackers a1 a2 (tk_combo tk)). split.
  - exists a1, a2. rewrite Hs, Ha. split; [exact E2|]. split; [exact E3 | reflexivity].
  - apply fu_trackers_grant. rewrite Ha. exact E5.
Qed.
Lemma compile_press_in_force tk p m tk' :
  compile_press tk (pl_time p) (pl_skill p) (pl_asked p) = Ok (tk', m, pl_buffs p, pl_debuffs p) ->
  add_positional (pl_skill p) m = Ok (pl_modifier p) -> in_force tk p tk'.
Proof.
  unfold compile_press. intros H M. inv_bind H. destruct a as [se1 [bu mb]]. inv_bind H. destruct a as [se2 [de md]].
  destruct (compile_job_resources _ _ _) as [jr mj] eqn:J. inv_bind H. destruct a as [ct mc].
  injection H as Ht Hm Hb Hd. subst bu de m tk'.
  exists se1, se2, jr, ct, mb, md, mj, mc. eexists _, _. split; [exact E|]. split; [exact E0|]. split; [exact J|]. split; [reflexivity|].
  split; [exact E1|]. split; [reflexivity|]. split; [exact M | reflexivity].
Qed.

(** ** Timed presses *)

Definition timed_effect (st : stats) (tk : trackers) (x : timed) : res (played * trackers) :=
  let* (tk1, m1, buffs, debuffs) := compile_press tk (tm_time x) (tm_skill x) (tm_modifier x) in
  let* m2 := add_positional (tm_skill x) m1 in
  let* main := of_option IndexError (hd_error (tm_targets x)) in
  skill_effect st tk1 (mkPlayed (tm_time x) (tm_skill x) (tm_modifier x) (tm_job x) (tm_targets x) m2
                         buffs debuffs None 0 []).

Lemma process_timed_eq st qu d tk pr sp x :
  process_timed st (mkPass (mkSim qu d tk) pr sp) x
  = (let* (p, tk') := timed_effect st tk x in
     let* qu' := foldM api_add (press_entries p) qu in
     Ok (mkPass (mkSim qu' (fold_left record_dot (press_dots p) d) tk')
           (pr ++ [press_record (st_job st) p])%list (sp ++ [press_stamp p])%list)).
Proof.
  unfold process_timed, timed_effect. cbn [pa_sim pa_press pa_stamps si_tk si_queue si_dots].
  destruct (compile_press tk (tm_time x) (tm_skill x) (tm_modifier x)) as [[[[tk1 m1] buffs] debuffs]|e]; [|reflexivity].
  cbn [bind]. destruct (add_positional (tm_skill x) m1) as [m2|e]; [|reflexivity]. cbn [bind].
  destruct (tm_targets x) as [|h tl] eqn:T; [reflexivity|]. cbn [hd_error of_option bind].
  set (p0 := mkPlayed (tm_time x) (tm_skill x) (tm_modifier x) (tm_job x) (h :: tl) m2 buffs debuffs None 0 []).
  pose proof (process_skill_eq st qu d tk1 p0) as P. cbn [pl_time pl_skill pl_modifier pl_buffs pl_targets p0] in P.
  rewrite P. fold p0. destruct (skill_effect st tk1 p0) as [[p tk']|e] eqn:E; [|reflexivity]. cbn [bind].
  destruct (foldM api_add (press_entries p) qu) as [qu'|e]; [|reflexivity]. cbn [bind].
  apply skill_effect_spec in E as (_ & _ & E1 & E2 & E3 & E4 & E5 & _); [|discriminate].
  unfold press_record, press_stamp, press_of. rewrite E1, E2, E3, E4, E5. reflexivity.
Qed.

Fixpoint timed_log (st : stats) (tk : trackers) (l : list timed) : res (list played * trackers) :=
  match l with
  | [] => Ok ([], tk)
  | x :: l' =>
      let* (p, tk') := timed_effect st tk x in
      let* (log, tk'') := timed_log st tk' l' in Ok (p :: log, tk'')
  end.

(** The pass that carries out a log. *)
Definition after (st : stats) (log : list played) (tk : trackers) (qu : queue) (d : dots) (pr : list press)
    (sp : list (Z * string)) : res pass :=
  let* qu' := foldM api_add (flat_map press_entries log) qu in
  Ok (mkPass (mkSim qu' (fold_left record_dot (flat_map press_dots log) d) tk)
        (pr ++ map (press_record (st_job st)) log)%list (sp ++ map press_stamp log)%list).

Lemma timed_loop_eq st l : forall qu d tk pr sp,
  foldM (process_timed st) l (mkPass (mkSim qu d tk) pr sp)
  = (let* (log, tk') := timed_log st tk l in after st log tk' qu d pr sp).
Proof.
  induction l as [|x l IH]; intros qu d tk pr sp.
  - cbn. rewrite !app_nil_r. reflexivity.
  - cbn [foldM timed_log]. rewrite process_timed_eq.
    destruct (timed_effect st tk x) as [[p tk']|e]; [|reflexivity]. cbn [bind].
    destruct (api_adds_total (press_entries p) qu) as (q1 & Q1). rewrite Q1. cbn [bind]. rewrite IH.
    destruct (timed_log st tk' l) as [[log tk'']|e]; [|reflexivity]. cbn [bind].
    unfold after. cbn [flat_map map]. rewrite api_adds_app, Q1. cbn [bind].
    rewrite fold_left_app, <- !app_assoc. reflexivity.
Qed.

(** ** Sequenced presses *)

Definition seq_effect (st : stats) (tk : trackers) (t0 : Z) (g : option Z) (x : seq_item)
  : res (played * trackers * Z * option Z) :=
  let s := sq_skill x in
  let t := press_time (sk_is_GCD s) t0 g in
  let* (tk1, m1, buffs, debuffs) := compile_press tk t s (sq_modifier x) in
  let* m2 := add_positional s m1 in
  let* ts := get_timing_spec s m2 in
  let* main := of_option IndexError (hd_error (sq_targets x)) in
  let* (p, tk') := skill_effect st tk1 (mkPlayed t s (sq_modifier x) (sq_job x) (sq_targets x) m2
                                          buffs debuffs None 0 []) in
  let* ts' := of_option AttributeError ts in
  if sk_is_GCD s then
    let* recast := get_recast_time st ts' buffs debuffs in
    let* cast := get_cast_time st ts m2 buffs in
    Ok (p, tk', t + (cast + animation_lock ts'), Some (t + recast))
  else Ok (p, tk', t + animation_lock ts', g).

Lemma process_seq_eq st qu d tk pr sp t g x :
  process_seq st (mkSeqState (mkPass (mkSim qu d tk) pr sp) t g) x
  = (let* (p, tk', t', g') := seq_effect st tk t g x in
     let* qu' := foldM api_add (press_entries p) qu in
     Ok (mkSeqState (mkPass (mkSim qu' (fold_left record_dot (press_dots p) d) tk')
           (pr ++ [press_record (st_job st) p])%list (sp ++ [press_stamp p])%list) t' g')).
Proof.
  unfold process_seq, seq_effect. cbn [ss_pass ss_t ss_next_gcd pa_sim pa_press pa_stamps si_tk si_queue si_dots].
  set (t1 := press_time (sk_is_GCD (sq_skill x)) t g).
  destruct (compile_press tk t1 (sq_skill x) (sq_modifier x)) as [[[[tk1 m1] buffs] debuffs]|e]; [|reflexivity].
  cbn [bind]. destruct (add_positional (sq_skill x) m1) as [m2|e]; [|reflexivity]. cbn [bind].
  destruct (get_timing_spec (sq_skill x) m2) as [ts|e]; [|reflexivity]. cbn [bind].
  destruct (sq_targets x) as [|h tl] eqn:T; [reflexivity|]. cbn [hd_error of_option bind].
  set (p0 := mkPlayed t1 (sq_skill x) (sq_modifier x) (sq_job x) (h :: tl) m2 buffs debuffs None 0 []).
  pose proof (process_skill_eq st qu d tk1 p0) as P. cbn [pl_time pl_skill pl_modifier pl_buffs pl_targets p0] in P.
  rewrite P. fold p0. destruct (skill_effect st tk1 p0) as [[p tk']|e] eqn:E; [|reflexivity]. cbn [bind].
  apply skill_effect_spec in E as (_ & _ & E1 & E2 & E3 & E4 & E5 & _); [|discriminate].
  assert (R : press_record (st_job st) p = press_of (st_job st) t1 (sq_skill x) (sq_modifier x) (sq_job x)).
  { unfold press_record, press_of. rewrite E1, E2, E3, E4. reflexivity. }
  assert (S : press_stamp p = (t1, h)) by (unfold press_stamp; rewrite E1, E5; reflexivity).
  destruct (api_adds_total (press_entries p) qu) as (q1 & Q1). rewrite Q1. cbn [bind].
  destruct (of_option AttributeError ts) as [ts'|e]; [|reflexivity]. cbn [bind].
  destruct (sk_is_GCD (sq_skill x)); [|cbn [bind]; rewrite Q1, R, S; reflexivity].
  destruct (get_recast_time st ts' buffs debuffs) as [r|e]; [|reflexivity]. cbn [bind].
  destruct (get_cast_time st ts m2 buffs) as [c|e]; [|reflexivity]. cbn [bind]. rewrite Q1, R, S. reflexivity.
Qed.

Fixpoint seq_log (st : stats) (tk : trackers) (t : Z) (g : option Z) (l : list seq_item)
  : res (list played * (trackers * Z * option Z)) :=
  match l with
  | [] => Ok ([], (tk, t, g))
  | x :: l' =>
      let* (p, tk', t', g') := seq_effect st tk t g x in
      let* (log, r) := seq_log st tk' t' g' l' in Ok (p :: log, r)
  end.

Lemma seq_loop_eq st l : forall qu d tk pr sp t g,
  foldM (process_seq st) l (mkSeqState (mkPass (mkSim qu d tk) pr sp) t g)
  = (let* (log, r) := seq_log st tk t g l in
     let* p := after st log (fst (fst r)) qu d pr sp in Ok (mkSeqState p (snd (fst r)) (snd r))).
Proof.
  induction l as [|x l IH]; intros qu d tk pr sp t g.
  - cbn. rewrite !app_nil_r. reflexivity.
  - cbn [foldM seq_log]. rewrite process_seq_eq.
    destruct (seq_effect st tk t g x) as [[[[p tk'] t'] g']|e]; [|reflexivity]. cbn [bind].
    destruct (api_adds_total (press_entries p) qu) as (q1 & Q1). rewrite Q1. cbn [bind]. rewrite IH.
    destruct (seq_log st tk' t' g' l) as [[log r]|e]; [|reflexivity]. cbn [bind].
    unfold after. cbn [flat_map map]. rewrite api_adds_app, Q1. cbn [bind].
    rewrite fold_left_app, <- !app_assoc. reflexivity.
Qed.

(** ** Both passes *)

Definition sequence_log (b : builder) : res (list played) :=
  let* tk := new_trackers (b_library b) (st_job (b_stats b)) (b_priority b) in
  let* (log, _) := seq_log (b_stats b) tk (match b_fight_start b with Some t => t | None => 0 end) None
                     (b_sequence b) in
  Ok log.
Definition timeds_log (b : builder) : res (list played) :=
  let* tk := new_trackers (b_library b) (st_job (b_stats b)) (b_priority b) in
  let* order := timed_order (b_timed b) in
  let* (log, _) := timed_log (b_stats b) tk order in Ok log.

Definition pass_of (r : res pass) : res (queue * dots * list press * list (Z * string)) :=
  let* p := r in Ok (si_queue (pa_sim p), si_dots (pa_sim p), pa_press p, pa_stamps p).

Definition log_pass (st : stats) (log : list played) (qu : queue) (d : dots) (pr : list press)
    (sp : list (Z * string)) : res (queue * dots * list press * list (Z * string)) :=
  let* qu' := foldM api_add (flat_map press_entries log) qu in
  Ok (qu', fold_left record_dot (flat_map press_dots log) d,
      (pr ++ map (press_record (st_job st)) log)%list, (sp ++ map press_stamp log)%list).

Lemma process_q_sequence_eq b qu d pr sp :
  pass_of (process_q_sequence b qu d pr sp)
  = let* log := sequence_log b in log_pass (b_stats b) log qu d pr sp.
Proof.
  unfold process_q_sequence, sequence_log, pass_of.
  destruct (new_trackers (b_library b) (st_job (b_stats b)) (b_priority b)) as [tk|e]; [|reflexivity]. cbn [bind].
  rewrite seq_loop_eq.
  destruct (seq_log (b_stats b) tk _ None (b_sequence b)) as [[log r]|e]; [|reflexivity]. cbn [bind].
  unfold after, log_pass. destruct (foldM api_add (flat_map press_entries log) qu); reflexivity.
Qed.
Lemma process_q_timed_eq b qu d pr sp :
  pass_of (process_q_timed b qu d pr sp)
  = let* log := timeds_log b in log_pass (b_stats b) log qu d pr sp.
Proof.
  unfold process_q_timed, timeds_log, pass_of.
  destruct (new_trackers (b_library b) (st_job (b_stats b)) (b_priority b)) as [tk|e]; [|reflexivity]. cbn [bind].
  destruct (timed_order (b_timed b)) as [order|e]; [|reflexivity]. cbn [bind].
  rewrite timed_loop_eq.
  destruct (timed_log (b_stats b) tk order) as [[log tk']|e]; [|reflexivity]. cbn [bind].
  unfold after, log_pass. destruct (foldM api_add (flat_map press_entries log) qu); reflexivity.
Qed.

(** The queue, dots, presses and stamps before dots are added. *)
Definition presses_pass (b : builder) : res (queue * dots * list press * list (Z * string)) :=
  let* slog := sequence_log b in
  let* tlog := timeds_log b in
  log_pass (b_stats b) (slog ++ tlog) q_init (b_dots b) [] (b_stamps b).

Lemma log_pass_app st l1 l2 qu d pr sp :
  (let* (q1, d1, pr1, sp1) := log_pass st l1 qu d pr sp in log_pass st l2 q1 d1 pr1 sp1)
  = log_pass st (l1 ++ l2) qu d pr sp.
Proof.
  unfold log_pass. rewrite flat_map_app, api_adds_app.
  destruct (foldM api_add (flat_map press_entries l1) qu) as [q1|e]; [|reflexivity]. cbn [bind].
  destruct (foldM api_add (flat_map press_entries l2) q1) as [q2|e]; [|reflexivity]. cbn [bind].
  rewrite flat_map_app, fold_left_app, !map_app, <- !app_assoc. reflexivity.
Qed.

(** [get_skill_timing] in terms of the logs. *)
Definition timing_tail (b : builder) (x : queue * dots * list press * list (Z * string)) : res builder :=
  let '(q2, d2, pr2, sp2) := x in
  let last := if b_ignore_trailing b then get_last_event_time q2 else None in
  let* q3 := process_all_dots (b_snap_dots b) d2 last q2 in
  let* q4 := if b_autos b then add_autos b sp2 last q3 else Ok q3 in
  let* (q5, pr) := match b_fight_start b with
                   | None => shift_timelines q4 pr2
                   | Some _ => Ok (q4, pr2)
                   end in
  let* q6 := remove_damage_during_downtime (b_windows b) q5 in
  Ok (with_results b d2 (sort_by pr_time pr) q6 sp2).

Lemma get_skill_timing_eq b0 :
  get_skill_timing b0
  = (let b := with_windows b0 (process_downtime_windows b0) in
     let* x := presses_pass b in timing_tail b x).
Proof.
  unfold get_skill_timing. cbv zeta. set (b := with_windows b0 (process_downtime_windows b0)).
  unfold presses_pass.
  pose proof (process_q_sequence_eq b q_init (b_dots b) [] (b_stamps b)) as H1. unfold pass_of in H1.
  destruct (process_q_sequence b q_init (b_dots b) [] (b_stamps b)) as [p1|e];
    destruct (sequence_log b) as [slog|e']; cbn [bind] in H1 |- *; try discriminate H1.
  2:{ unfold log_pass in H1. destruct (api_adds_total (flat_map press_entries slog) q_init) as (q1 & Q1).
      rewrite Q1 in H1. discriminate H1. }
  2:{ injection H1 as ->. reflexivity. }
  pose proof (process_q_timed_eq b (si_queue (pa_sim p1)) (si_dots (pa_sim p1)) (pa_press p1) (pa_stamps p1)) as H2.
  unfold pass_of in H2.
  destruct (process_q_timed b (si_queue (pa_sim p1)) (si_dots (pa_sim p1)) (pa_press p1) (pa_stamps p1)) as [p2|e];
    destruct (timeds_log b) as [tlog|e']; cbn [bind] in H2 |- *; try discriminate H2.
  2:{ unfold log_pass in H2. destruct (api_adds_total (flat_map press_entries tlog) (si_queue (pa_sim p1))) as (q1 & Q1).
      rewrite Q1 in H2. discriminate H2. }
  2:{ injection H2 as ->. reflexivity. }
  rewrite <- log_pass_app, <- H1. cbn [bind]. rewrite <- H2. reflexivity.
Qed.
