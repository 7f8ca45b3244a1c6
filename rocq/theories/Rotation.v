(** * simulator/timeline_builders/rotation_builder.py

    All times are integers (ms): the code only ever adds, subtracts and truncates
    integers here.  The one exception (an auto forwarded to a downtime window
    end that is not a whole number of ms) is [Unmodelled]. *)

From Coq Require Import ZArith QArith Qround List String Bool.
From Verif Require Import Base Float Heap Strings Types Lookup StatusEffect JobResource Combo
  Channeling Stats Library Events.
Import ListNotations.
Open Scope string_scope.
Open Scope Z_scope.

(** utils.py lines 34-37 with digit 2: [int(10.0 * np.floor(x / 10.0))] *)
Definition truncate_to_digit2 (x : Q) : Z := qtrunc (fmul (q 10) (ffloor (fdiv x (q 10)))).

(** utils.py lines 30-32 on an integer time. *)
Definition time_to_prio (t : Z) : Z := 1000 * t.

(** ** State *)

(** An element of [_q_timed], line 178: (time, skill, modifier, job, targets). *)
Record timed := mkTimed {
  tm_time : Z; tm_skill : skill; tm_modifier : modifier; tm_job : string; tm_targets : list string
}.
(** An element of [_q_sequence], line 162. *)
Record seq_item := mkSeq {
  sq_skill : skill; sq_modifier : modifier; sq_job : string; sq_targets : list string
}.
(** An element of [__q_button_press_timing], lines 485-492; the condition string is
    ",".join of a set, whose order Python leaves open. *)
Record press := mkPress { pr_time : Z; pr_name : string; pr_job : string; pr_cond : string }.

(** A downtime window in ms, lines 83-90. *)
Record window := mkWindow { w_start : Q; w_end : Q; w_class : option dclass }.
Inductive windows := WTuple (l : list window) | WDict (d : dict (list window)).

(** [_q_dot_skills]: target -> follow-up -> [(snapshot, application, priority modifier)] *)
Definition dot_entry := (Z * Z * Z)%type.
Definition dots := dict (list (follow_up * list dot_entry)).

(** Lines 50-76 *)
Record builder := mkBuilder {
  b_stats : stats;
  b_library : library;
  b_snap_dots : option Q;
  b_autos : bool;
  b_ignore_trailing : bool;
  b_fight_start : option Z;
  b_windows : windows;
  b_default_target : string;
  b_priority : list string;
  b_timed : list timed;
  b_sequence : list seq_item;
  b_dots : dots;
  b_press : list press;
  b_queue : queue;
  b_stamps : list (Z * string);
  b_targets : list string
}.

(** Lines 78-91: windows are given in seconds, with an optional damage class. *)
Definition init_windows (l : list (Q * Q * option dclass)) : list window :=
  map (fun w => let '(s, e, c) := w in mkWindow (fmul s (q 1000)) (fmul e (q 1000)) c) l.
Inductive raw_windows :=
| RWTuple (l : list (Q * Q * option dclass))
| RWDict (d : dict (list (Q * Q * option dclass))).
(** Lines 93-104 *)
Definition init_downtime_windows (r : raw_windows) : windows :=
  match r with
  | RWTuple l => WTuple (init_windows l)
  | RWDict d => WDict (map (fun kv => (fst kv, init_windows (snd kv))) d)
  end.

(** Lines 27-76 *)
Definition rb_init (st : stats) (lib : library) (snap : option Q) (autos ignore_trailing : bool)
    (fight_start : option Z) (w : raw_windows) (default_target : string) : res builder :=
  let* prio := get_status_effect_priority lib (st_job st) in
  Ok (mkBuilder st lib snap autos ignore_trailing fight_start (init_downtime_windows w)
        default_target prio [] [] [] [] q_init [] []).

(** Lines 124-133: the targets of a call, and the set of all targets so far. *)
Definition process_targets (b : builder) (targets : option string) : list string * list string :=
  let l := split_targets (match targets with Some s => s | None => b_default_target b end) in
  (l, fold_left (fun acc x => sadd x acc) l (b_targets b)).

(** Lines 141-145: [job_class_provided] is always true. *)
Definition get_default_skill_modifier (b : builder) (s : skill) (job : string) : modifier :=
  if String.eqb job (st_job (b_stats b)) then default_modifier
  else modifier_with (sk_off_class_default s).

Definition job_or_default (b : builder) (job : option string) : string :=
  match job with Some j => j | None => st_job (b_stats b) end.
Definition modifier_or_default (b : builder) (s : skill) (m : option modifier) (job : string)
  : modifier :=
  match m with Some m => m | None => get_default_skill_modifier b s job end.

(** Lines 147-162 *)
Definition add_next (b : builder) (skill_name : string) (m : option modifier) (job : option string)
    (num_times : Z) (targets : option string) : res builder :=
  let (tg, all) := process_targets b targets in
  let j := job_or_default b job in
  let* s := get_skill (b_library b) skill_name j in
  let item := mkSeq s (modifier_or_default b s m j) j tg in
  Ok (mkBuilder (b_stats b) (b_library b) (b_snap_dots b) (b_autos b) (b_ignore_trailing b)
        (b_fight_start b) (b_windows b) (b_default_target b) (b_priority b) (b_timed b)
        (b_sequence b ++ repeat item (Z.to_nat num_times))%list (b_dots b) (b_press b) (b_queue b)
        (b_stamps b) all).

(** Lines 164-178 *)
Definition add (b : builder) (t : Q) (skill_name : string) (m : option modifier)
    (job : option string) (targets : option string) : res builder :=
  let (tg, all) := process_targets b targets in
  let j := job_or_default b job in
  let* s := get_skill (b_library b) skill_name j in
  let item := mkTimed (qtrunc (fmul (q 1000) t)) s (modifier_or_default b s m j) j tg in
  Ok (mkBuilder (b_stats b) (b_library b) (b_snap_dots b) (b_autos b) (b_ignore_trailing b)
        (b_fight_start b) (b_windows b) (b_default_target b) (b_priority b)
        (b_timed b ++ [item])%list (b_sequence b) (b_dots b) (b_press b) (b_queue b) (b_stamps b) all).

(** Lines 118-122 *)
Definition set_enable_autos (b : builder) (x : bool) : builder :=
  mkBuilder (b_stats b) (b_library b) (b_snap_dots b) x (b_ignore_trailing b)
    (b_fight_start b) (b_windows b) (b_default_target b) (b_priority b) (b_timed b)
    (b_sequence b) (b_dots b) (b_press b) (b_queue b) (b_stamps b) (b_targets b).
Definition set_ignore_trailing_dots (b : builder) (x : bool) : builder :=
  mkBuilder (b_stats b) (b_library b) (b_snap_dots b) (b_autos b) x
    (b_fight_start b) (b_windows b) (b_default_target b) (b_priority b) (b_timed b)
    (b_sequence b) (b_dots b) (b_press b) (b_queue b) (b_stamps b) (b_targets b).

(** ** One skill *)

(** The three trackers created at lines 473-479 and 538-544. *)
Record trackers := mkTrackers { tk_se : se_tracker; tk_jr : jr_tracker; tk_combo : combo_tracker }.
Definition new_trackers (lib : library) (job : string) (prio : list string) : res trackers :=
  let* rs := get_all_resource_settings lib job in
  let* br := get_all_combo_breakers lib job in
  Ok (mkTrackers (se_init prio) (jr_init rs) (combo_init br)).

(** Lines 184-211 *)
Definition scaled_time (st : stats) (ts : timing_spec) (base : Z) (mult : Q) : res Z :=
  let* t1 := if affected_by_speed_stat ts
             then get_time_using_speed_stat base (st_speed st) (st_version st) (st_level st)
             else Ok base in
  Ok (if affected_by_haste_buffs ts
      then truncate_to_digit2 (fmul (fmul (q t1) mult) (fsub 1 (ps_trait_haste st)))
      else t1).
(** [max(0, x - reduction)], the reduction possibly infinite *)
Definition reduce_time (x : Z) (r : ext) : Z :=
  match r with Fin z => Z.max 0 (x - z) | Inf => 0 end.
Definition get_cast_time (st : stats) (ts : option timing_spec) (m : modifier) (buffs : status_effects)
  : res Z :=
  if sm_ignore_cast_times m then Ok 0
  else
    let* ts := of_option AttributeError ts in
    let* t := scaled_time st ts (base_cast_time ts) (ef_haste_mult buffs) in
    Ok (reduce_time t (ef_flat_cast buffs)).

(** Lines 494-518 (= 564-588 = 854-879): what the trackers add to the modifier. *)
Definition compile_press (tk : trackers) (t : Z) (s : skill) (m : modifier)
  : res (trackers * modifier * status_effects * status_effects) :=
  let se0 := expire_status_effects t (tk_se tk) in
  let* (se1, (buffs, mb)) := compile_buffs se0 t s in
  let* (se2, (debuffs, md)) := compile_debuffs se1 t s DEFAULT_TARGET in
  let (jr1, mj) := compile_job_resources (tk_jr tk) t (sk_name s) in
  let m1 := add_to_condition (add_to_condition (add_to_condition m mb) md) mj in
  let* (ct1, mc) := compile_and_update_combo (tk_combo tk) t s m1 in
  Ok (mkTrackers se2 jr1 ct1, add_to_condition m1 mc, buffs, debuffs).

(** The part of the builder that processing a skill changes. *)
Record sim := mkSim { si_queue : queue; si_dots : dots; si_tk : trackers }.

(** Lines 221-233 *)
Fixpoint add_dot_entry (fu : follow_up) (e : dot_entry) (l : list (follow_up * list dot_entry))
  : list (follow_up * list dot_entry) :=
  match l with
  | [] => [(fu, [e])]
  | (fu', es) :: l' =>
      if follow_up_eqb fu fu' then (fu', (es ++ [e])%list) :: l' else (fu', es) :: add_dot_entry fu e l'
  end.
Definition add_dot_target (fu : follow_up) (e : dot_entry) (d : dots) (target : string) : dots :=
  dset target (add_dot_entry fu e (match dget target d with Some l => l | None => [] end)) d.

(** Lines 235-279 *)
Definition process_non_dot_follow_up (sm : sim) (fu : follow_up) (priority_modifier : Z)
    (parent_snapshot parent_application : Z) (targets : list string) : res sim :=
  let s := fu_skill fu in
  let application_time := parent_application + fu_delay fu in
  let '(snapshot_time, sn) :=
    if fu_snap_buffs fu || fu_snap_debuffs fu
    then (parent_snapshot, (SFlag (fu_snap_buffs fu), SFlag (fu_snap_debuffs fu)))
    else (application_time, (SFlag true, SFlag true)) in
  let* tg := if fu_primary_only fu
             then let* h := of_option IndexError (hd_error targets) in Ok [h]
             else Ok targets in
  let* qu := q_add_new (si_queue sm) (time_to_prio snapshot_time + priority_modifier)
               snapshot_time (Some application_time) s default_modifier sn tg in
  let* se := add_to_status_effects (tk_se (si_tk sm)) application_time s default_modifier tg in
  let* jr := add_resource (tk_jr (si_tk sm)) application_time s default_modifier in
  Ok (mkSim qu (si_dots sm) (mkTrackers se jr (tk_combo (si_tk sm)))).

(** Lines 290-310, one iteration *)
Definition process_follow_up (parent_snapshot parent_application : Z) (targets : list string)
    (sm : sim) (ifu : Z * follow_up) : res sim :=
  let (i, fu) := ifu in
  match fu_dot fu with
  | Some _ =>
      Ok (mkSim (si_queue sm)
            (fold_left (add_dot_target fu (parent_snapshot, parent_application, i + 1)) targets
               (si_dots sm)) (si_tk sm))
  | None => process_non_dot_follow_up sm fu (i + 1) parent_snapshot parent_application targets
  end.

(** Lines 426-443: (snapshot time, application time) *)
Definition skill_times (ts : option timing_spec) (m : modifier) (t cast : Z) : res (Z * Z) :=
  let snapshot := t + Z.max 0 (cast - DAMAGE_SNAPSHOT_TIME_BEFORE_CAST_FINISHES) in
  if sm_ignore_application_delay m then Ok (snapshot, t + cast)
  else
    let* ts := of_option AttributeError ts in
    let delay :=
      if 0 <? cast
      then Z.max 0 (- DAMAGE_SNAPSHOT_TIME_BEFORE_CAST_FINISHES + application_delay ts)
      else application_delay ts in
    Ok (snapshot, t + cast + delay).

(** Lines 413-470 *)
Definition process_skill (st : stats) (sm : sim) (t : Z) (s : skill) (m : modifier)
    (buffs : status_effects) (targets : list string) : res sim :=
  let* ts := get_timing_spec s m in
  let* cast := get_cast_time st ts m buffs in
  let* (snapshot, application) := skill_times ts m t cast in
  let* qu := q_add_new (si_queue sm) (time_to_prio snapshot) snapshot (Some application) s m
               (SFlag true, SFlag true) targets in
  let* se := add_to_status_effects (tk_se (si_tk sm)) application s m targets in
  let* jr := add_resource (tk_jr (si_tk sm)) snapshot s m in
  let* fus := get_follow_up_skills s m in
  foldM (process_follow_up snapshot application targets) (enumerate fus)
    (mkSim qu (si_dots sm) (mkTrackers se jr (tk_combo (si_tk sm)))).

(** ** Timed presses, lines 472-535 *)

(** Comparison of the tuples in [_q_timed] by [heapq].  Skills are compared field by
    field starting with the name; two different skills with one name are outside
    the model (most such comparisons raise TypeError).  SkillModifier has no
    fields to order by, so distinct modifiers are never [<] (skill_modifier.py
    line 9). *)
Definition timed_lt (a b : timed) : res bool :=
  if negb (tm_time a =? tm_time b) then Ok (tm_time a <? tm_time b)
  else if negb (String.eqb (sk_name (tm_skill a)) (sk_name (tm_skill b)))
  then Ok (str_ltb (sk_name (tm_skill a)) (sk_name (tm_skill b)))
  else if negb (skill_eqb (tm_skill a) (tm_skill b)) then Err Unmodelled
  else if negb (modifier_eqb (tm_modifier a) (tm_modifier b)) then Ok false
  else if negb (String.eqb (tm_job a) (tm_job b)) then Ok (str_ltb (tm_job a) (tm_job b))
  else Ok (strs_ltb (tm_targets a) (tm_targets b)).

(** What a whole pass accumulates. *)
Record pass := mkPass { pa_sim : sim; pa_press : list press; pa_stamps : list (Z * string) }.

Definition press_of (job : string) (t : Z) (s : skill) (m : modifier) (j : string) : press :=
  mkPress t (sk_name s) (if String.eqb j job then "" else j) (join "," (sm_cond m)).

(** Lines 484-535: one timed press. *)
Definition process_timed (st : stats) (p : pass) (x : timed) : res pass :=
  let t := tm_time x in
  let s := tm_skill x in
  let pr := (pa_press p ++ [press_of (st_job st) t s (tm_modifier x) (tm_job x)])%list in
  let* (tk, m1, buffs, _) := compile_press (si_tk (pa_sim p)) t s (tm_modifier x) in
  let* m2 := add_positional s m1 in
  let* main := of_option IndexError (hd_error (tm_targets x)) in
  let* sm := process_skill st (mkSim (si_queue (pa_sim p)) (si_dots (pa_sim p)) tk) t s m2 buffs
               (tm_targets x) in
  Ok (mkPass sm pr (pa_stamps p ++ [(t, main)])%list).

(** Lines 481-484: the order in which the presses are processed.  The Python loop
    pops one element per iteration; popping does not depend on the processing. *)
Definition timed_order (l : list timed) : res (list timed) :=
  drain timed_lt (List.length l) (sort_by tm_time l).

(** Lines 472-535 *)
Definition process_q_timed (b : builder) (qu : queue) (d : dots) (pr : list press)
    (stamps : list (Z * string)) : res pass :=
  let* tk := new_trackers (b_library b) (st_job (b_stats b)) (b_priority b) in
  let* order := timed_order (b_timed b) in
  foldM (process_timed (b_stats b)) order (mkPass (mkSim qu d tk) pr stamps).

(** ** Sequential presses, lines 537-655 *)

(** [None] for [next_gcd_time] is -inf. *)
Record seq_state := mkSeqState { ss_pass : pass; ss_t : Z; ss_next_gcd : option Z }.

(** Lines 553-554 *)
Definition press_time (is_gcd : bool) (t : Z) (next_gcd : option Z) : Z :=
  if is_gcd then match next_gcd with Some g => Z.max t g | None => t end else t.

(** Lines 610-638 *)
Definition get_recast_time (st : stats) (ts : timing_spec) (buffs debuffs : status_effects) : res Z :=
  let* t1 := if affected_by_speed_stat ts
             then get_time_using_speed_stat (gcd_base_recast ts) (st_speed st) (st_version st) (st_level st)
             else Ok (gcd_base_recast ts) in
  let t2 := if affected_by_haste_buffs ts
            then truncate_to_digit2 (fmul (fmul (fmul (q t1) (ef_haste_mult buffs)) (ef_haste_mult debuffs))
                                       (fsub 1 (ps_trait_haste st)))
            else t1 in
  let t3 := t2 - ef_flat_gcd buffs in
  Ok (if gcd_base_recast ts =? GCD_RECAST_TIME then Z.max t3 MIN_GCD_RECAST_TIME else t3).

(** Lines 552-655: one iteration. *)
Definition process_seq (st : stats) (ss : seq_state) (x : seq_item) : res seq_state :=
  let s := sq_skill x in
  let p := ss_pass ss in
  let t := press_time (sk_is_GCD s) (ss_t ss) (ss_next_gcd ss) in
  let pr := (pa_press p ++ [press_of (st_job st) t s (sq_modifier x) (sq_job x)])%list in
  let* (tk, m1, buffs, debuffs) := compile_press (si_tk (pa_sim p)) t s (sq_modifier x) in
  let* m2 := add_positional s m1 in
  let* ts := get_timing_spec s m2 in
  let* main := of_option IndexError (hd_error (sq_targets x)) in
  let* sm := process_skill st (mkSim (si_queue (pa_sim p)) (si_dots (pa_sim p)) tk) t s m2 buffs
               (sq_targets x) in
  let p' := mkPass sm pr (pa_stamps p ++ [(t, main)])%list in
  let* ts' := of_option AttributeError ts in
  if sk_is_GCD s then
    let* recast := get_recast_time st ts' buffs debuffs in
    let* cast := get_cast_time st ts m2 buffs in
    Ok (mkSeqState p' (t + (cast + animation_lock ts')) (Some (t + recast)))
  else Ok (mkSeqState p' (t + animation_lock ts') (ss_next_gcd ss)).

(** Lines 537-655 *)
Definition process_q_sequence (b : builder) (qu : queue) (d : dots) (pr : list press)
    (stamps : list (Z * string)) : res pass :=
  let* tk := new_trackers (b_library b) (st_job (b_stats b)) (b_priority b) in
  let t0 := match b_fight_start b with Some t => t | None => 0 end in
  let* ss := foldM (process_seq (b_stats b)) (b_sequence b)
               (mkSeqState (mkPass (mkSim qu d tk) pr stamps) t0 None) in
  Ok (ss_pass ss).

(** ** DoTs, lines 312-411 *)

(** (start, end, parent snapshot, priority modifier) *)
Definition dot_window := (Z * Z * Z * Z)%type.
Definition dw_start (w : dot_window) : Z := let '(s, _, _, _) := w in s.

(** Lines 312-332 *)
Definition base_dot_timings (duration : Z) (l : list dot_entry) : list dot_window :=
  sort_by dw_start (map (fun e => let '(snap, app, pm) := e in (app, app + duration, snap, pm)) l).

(** Lines 334-350 *)
Fixpoint consolidate (l : list dot_window) : list dot_window :=
  match l with
  | [] => []
  | [w] => [w]
  | (s, e, snap, pm) :: ((s', _, _, _) :: _) as l' => (s, Z.min e s', snap, pm) :: consolidate l'
  end.

(** Python float [x % y] for [y > 0]: exact [fmod], then one rounded addition. *)
Definition fmod_pos (x y : Q) : Q :=
  let r := (x - y * inject_Z (qtrunc (x / y)))%Q in
  if qltb r 0 then fl (r + y) else r.

(** Lines 373-389 *)
Definition dot_first_tick (snap : option Q) (start : Z) : Z :=
  match snap with
  | None => start
  | Some s0 =>
      let shave_off := fmod_pos (fsub (q start) (fmul (q 1000) s0)) (q DOT_TICK_INTERVAL) in
      if Qle_bool shave_off (dec 1 1000000) then start
      else qtrunc (fadd (fsub (q start) shave_off) (q DOT_TICK_INTERVAL))
  end.

(** [range(a, b, step)] *)
Fixpoint ticks_n (n : nat) (a step : Z) : list Z :=
  match n with
  | O => []
  | S n' => a :: ticks_n n' (a + step) step
  end.
Definition range_step (a b step : Z) : list Z :=
  ticks_n (Z.to_nat ((b - a + step - 1) / step)) a step.

(** Line 393: [(last_event_time) and (application_time > last_event_time)] *)
Definition is_trailing (last : option Z) (t : Z) : bool :=
  match last with
  | None => false
  | Some l => negb (l =? 0) && (l <? t)
  end.

(** Lines 390-411: one tick; the state is the queue and [dot_num]. *)
Definition add_tick (fu : follow_up) (target : string) (last : option Z) (snap pm : Z)
    (st : queue * Z) (t : Z) : res (queue * Z) :=
  let (qu, n) := st in
  if is_trailing last t then Ok st
  else
    let* qu' := q_add_new qu (time_to_prio snap + (pm + n)) snap (Some t) (fu_skill fu)
                  default_modifier (SFlag (fu_snap_buffs fu), SFlag (fu_snap_debuffs fu)) [target] in
    Ok (qu', n + 1).

(** Lines 367-411: one window *)
Definition add_dot_window (server : option Q) (fu : follow_up) (target : string) (last : option Z)
    (st : queue * Z) (w : dot_window) : res (queue * Z) :=
  let '(start, e, snap, pm) := w in
  foldM (add_tick fu target last snap pm)
    (range_step (dot_first_tick server start) e DOT_TICK_INTERVAL) st.

(** Lines 355-411: one (target, follow-up) pair; only follow-ups with a dot
    duration are ever stored. *)
Definition add_dot (server : option Q) (target : string) (last : option Z) (qu : queue)
    (x : follow_up * list dot_entry) : res queue :=
  let (fu, entries) := x in
  let* dur := of_option TypeError (fu_dot fu) in
  let* (qu', _) := foldM (add_dot_window server fu target last)
                     (consolidate (base_dot_timings dur entries)) (qu, 0) in
  Ok qu'.

(** Lines 352-411 *)
Definition process_all_dots (server : option Q) (d : dots) (last : option Z) (qu : queue) : res queue :=
  foldM (fun qu kv => foldM (add_dot server (fst kv) last) (snd kv) qu) d qu.

(** ** Autos, lines 785-998 *)

Definition has_speed (sp : option status_spec) : bool :=
  match sp with
  | None => false
  | Some s => qltb 0 (auto_attack_delay_reduction s) || qltb 0 (haste_time_reduction s)
              || ext_pos (flat_cast_time_reduction s)
  end.
(** Lines 785-814 *)
Definition speed_timeline (qu : queue) : res (list (Z * skill)) :=
  let* l := mapM (fun e =>
              let* bs := get_buff_spec (ev_skill e) (ev_modifier e) in
              let* ds := get_debuff_spec (ev_skill e) (ev_modifier e) in
              Ok (if has_speed bs || has_speed ds then [(ev_time e, ev_skill e)] else [])) (get_q qu) in
  Ok (sort_by fst (List.concat l)).

(** Lines 816-838, for [skill_modifier = SkillModifier()].  After the loop [skill]
    is the last status effect's skill, not the auto skill. *)
Definition applicable_effects (b : builder) (timeline : list (Z * skill)) (t : Z) (auto : skill)
    (targets : list string) : res (status_effects * status_effects) :=
  let evs := filter (fun x => fst x <=? t) timeline in
  let* rs := get_all_resource_settings (b_library b) (st_job (b_stats b)) in
  let* (se, _) := foldM (fun (st : se_tracker * jr_tracker) x =>
                    let (se, jr) := st in
                    let* se' := add_to_status_effects (expire_status_effects (fst x) se) (fst x) (snd x)
                                  default_modifier targets in
                    let* jr' := add_resource jr (fst x) (snd x) default_modifier in
                    Ok (se', jr')) evs (se_init (b_priority b), jr_init rs) in
  let s := snd (last evs (0, auto)) in
  let se1 := expire_status_effects t se in
  let* (se2, (buffs, _)) := compile_buffs se1 t s in
  let* (_, (debuffs, _)) := compile_debuffs se2 t s DEFAULT_TARGET in
  Ok (buffs, debuffs).

(** Lines 852-890: one press; state is (trackers, channeling, cast periods). *)
Definition no_auto_step (b : builder) (st : trackers * ch_tracker * list (Z * ext)) (x : timed)
  : res (trackers * ch_tracker * list (Z * ext)) :=
  let '(tk, ch, casts) := st in
  let t := tm_time x in
  let s := tm_skill x in
  let* ch' := process_channeling ch t s (tm_modifier x) in
  let* (tk1, m1, buffs, _) := compile_press tk t s (tm_modifier x) in
  let* ts := get_timing_spec s m1 in
  let* cast := get_cast_time (b_stats b) ts m1 buffs in
  let casts' := if 0 <? cast then (casts ++ [(t, Fin (t + cast))])%list else casts in
  let* se := add_to_status_effects (tk_se tk1) t s m1 [b_default_target b] in
  let* jr := add_resource (tk_jr tk1) t s m1 in
  Ok (mkTrackers se jr (tk_combo tk1), ch', casts').
(** Lines 840-895; [heappop] on the presses in the order they were added. *)
Definition get_no_auto_periods (b : builder) : res (list (Z * ext)) :=
  let* tk := new_trackers (b_library b) (st_job (b_stats b)) (b_priority b) in
  let* order := drain timed_lt (List.length (b_timed b)) (b_timed b) in
  let* (_, ch, casts) := foldM (no_auto_step b) order (tk, ch_init, []) in
  let* chf := ch_finalize ch in
  let* w := get_channeling_windows chf in
  Ok (sort_lt window_ltb (w ++ casts)%list).

(** [self.__downtime_windows.get(target, tuple())]: only called once the windows are
    a dict (line 761). *)
Definition windows_for (w : windows) (target : string) : list window :=
  match w with
  | WDict d => match dget target d with Some l => l | None => [] end
  | WTuple l => l
  end.
Definition in_window (w : window) (t : Q) : bool := Qle_bool (w_start w) t && qltb t (w_end w).
Definition window_hits (w : window) (c : dclass) : bool :=
  match w_class w with None => true | Some c' => dclass_eqb c' c end.

(** Lines 898-904 *)
Fixpoint forward_downtime (l : list window) (t : Z) : Q :=
  match l with
  | [] => q t
  | w :: l' => if in_window w (q t) && window_hits w DC_AUTO then w_end w else forward_downtime l' t
  end.
(** A rational that is an integer. *)
Definition as_int (x : Q) : res Z :=
  if Qeq_bool (ffloor x) x then Ok (Qfloor x) else Err Unmodelled.

(** [max(x[1] for x in l)] for a non-empty list *)
Definition ext_max (a b : ext) : ext :=
  match a, b with Fin x, Fin y => Fin (Z.max x y) | _, _ => Inf end.
(** [t <= e] *)
Definition z_le_ext (t : Z) (e : ext) : bool := negb (z_gt_ext t e).
(** Lines 906-915 *)
Definition next_auto_time (w : list window) (periods : list (Z * ext)) (t : Z) : res ext :=
  let* t1 := as_int (forward_downtime w t) in
  match filter (fun x => (fst x <=? t1) && z_le_ext t1 (snd x)) periods with
  | [] => Ok (Fin t1)
  | x :: l => Ok (fold_left ext_max (map snd l) (snd x))
  end.

(** Lines 919-927 *)
Fixpoint shorten_from (curr : string) (l : list (Z * string)) : list (Z * string) :=
  match l with
  | [] => []
  | x :: l' => if String.eqb (snd x) curr then shorten_from curr l' else x :: shorten_from (snd x) l'
  end.
Definition shorten_sequence (l : list (Z * string)) : res (list (Z * string)) :=
  match l with
  | [] => Err IndexError
  | x :: l' => Ok (x :: shorten_from (snd x) l')
  end.

(** Lines 953-957 *)
Fixpoint advance (l : list (Z * string)) (ind : nat) (t : Z) : nat :=
  match l with
  | [] => ind
  | x :: l' => if fst x <=? t then advance l' (S ind) t else ind
  end.

(** Lines 952-998: the loop. *)
Fixpoint auto_loop (fuel : nat) (b : builder) (stamps : list (Z * string)) (auto : skill)
    (delay weapon_delay last : Z) (qu : queue) (snapshot : Z) (ind : nat) : res queue :=
  let application := snapshot + delay in
  if negb (application <? last) then Ok qu
  else
    match fuel with
    | O => Err OutOfFuel
    | S fuel' =>
        let ind' := Nat.pred (advance (skipn ind stamps) ind snapshot) in
        let* (_, target) := of_option IndexError (nth_error stamps ind') in
        let* qu' := q_add_new qu (time_to_prio snapshot) snapshot (Some application) auto
                      default_modifier (SFlag true, SFlag true) [target] in
        let* timeline := speed_timeline qu' in
        let* (buffs, debuffs) := applicable_effects b timeline snapshot auto [b_default_target b] in
        let step := truncate_to_digit2
                      (fmul (fmul (fmul (q weapon_delay) (fsub 1 (ps_trait_auto (b_stats b))))
                               (ef_auto_delay_mult buffs)) (ef_auto_delay_mult debuffs)) in
        let* periods := get_no_auto_periods b in
        let* nxt := next_auto_time (windows_for (b_windows b) target) periods (snapshot + step) in
        match nxt with
        | Inf => Ok qu'
        | Fin t => auto_loop fuel' b stamps auto delay weapon_delay last qu' t ind'
        end
    end.

(** Lines 935-938 *)
Definition auto_skill_of (lib : library) (job : string) : res skill :=
  let* h := has_skill lib "Shot" job in
  if h then get_skill lib "Shot" job else get_skill lib "Auto" job.
(** [auto_skill.timing_spec.application_delay] *)
Definition auto_delay_of (s : skill) : res Z :=
  match sk_timing s with COne ts => Ok (application_delay ts) | _ => Err AttributeError end.

(** Enough iterations for a run whose delays are all positive: every delay is a
    multiple of 10 ms (see C22_ends in PropsAuto.v). *)
Definition auto_fuel (first last : Z) : nat := Z.to_nat ((last - first) / 10 + 2).

(** Lines 918-998; [b_windows] has been made a dict before. *)
Definition add_autos (b : builder) (stamps : list (Z * string)) (last_event : option Z) (qu : queue)
  : res queue :=
  let* short := shorten_sequence (sort_by fst stamps) in
  let weapon_delay := qtrunc (fmul (q 1000) (st_weapon_delay (b_stats b))) in
  let* auto := auto_skill_of (b_library b) (st_job (b_stats b)) in
  let last := match last_event with Some t => Some t | None => get_last_event_time qu end in
  let* first := get_first_damage_time qu in
  let* first := of_option TypeError first in
  let* delay := auto_delay_of auto in
  let* last := of_option TypeError last in
  auto_loop (auto_fuel (first + delay) last) b short auto delay weapon_delay last qu first 0%nat.

(** ** Shift and downtime, lines 657-751 *)

(** Lines 666-694: one event *)
Definition shift_event (d : Z) (qu : queue) (e : event) : res queue :=
  q_add_new qu (ev_priority e - time_to_prio d) (ev_primary e - d)
    (option_map (fun t => t - d) (ev_secondary e)) (ev_skill e) (ev_modifier e) (ev_snap e) (ev_targets e).
(** Lines 657-695 *)
Definition shift_timelines (qu : queue) (pr : list press) : res (queue * list press) :=
  let* first := get_first_damage_time qu in
  match first with
  | None => Ok (qu, pr)
  | Some d =>
      let pr' := map (fun p => mkPress (pr_time p - d) (pr_name p) (pr_job p) (pr_cond p)) pr in
      let* evs := q_drain qu in
      let* qu' := foldM (shift_event d) evs q_init in
      Ok (qu', pr')
  end.

(** Lines 697-703 *)
Definition filtered (w : windows) (t : Z) (target : string) (c : dclass) : bool :=
  existsb (fun r => in_window r (q t) && window_hits r c) (windows_for w target).
(** Lines 727-740: is this target kept? *)
Definition keep_target (w : windows) (e : event) (target : string) : res bool :=
  let* d := get_damage_spec (ev_skill e) (ev_modifier e) in
  Ok (match d with
      | None => true
      | Some sp => negb (filtered w (ev_time e) target (damage_class sp)
                         || filtered w (ev_primary e) target (damage_class sp))
      end).
Fixpoint filterM {A} (f : A -> res bool) (l : list A) : res (list A) :=
  match l with
  | [] => Ok []
  | a :: l' => let* b := f a in let* r := filterM f l' in Ok (if b then a :: r else r)
  end.
(** Lines 707-750: one event *)
Definition downtime_event (w : windows) (qu : queue) (e : event) : res queue :=
  let* valid := filterM (keep_target w e) (ev_targets e) in
  match valid with
  | [] => Ok qu
  | _ => q_add_new qu (ev_priority e) (ev_primary e) (ev_secondary e) (ev_skill e) (ev_modifier e)
           (ev_snap e) valid
  end.
(** Lines 705-751 *)
Definition remove_damage_during_downtime (w : windows) (qu : queue) : res queue :=
  let* evs := q_drain qu in foldM (downtime_event w) evs q_init.

(** ** get_skill_timing, lines 756-783 *)

(** Lines 106-111 *)
Definition process_downtime_windows (b : builder) : windows :=
  match b_windows b with
  | WTuple l => WDict (map (fun k => (k, l)) (b_targets b))
  | w => w
  end.

Definition with_windows (b : builder) (w : windows) : builder :=
  mkBuilder (b_stats b) (b_library b) (b_snap_dots b) (b_autos b) (b_ignore_trailing b)
    (b_fight_start b) w (b_default_target b) (b_priority b) (b_timed b) (b_sequence b) (b_dots b)
    (b_press b) (b_queue b) (b_stamps b) (b_targets b).
Definition with_results (b : builder) (d : dots) (pr : list press) (qu : queue)
    (stamps : list (Z * string)) : builder :=
  mkBuilder (b_stats b) (b_library b) (b_snap_dots b) (b_autos b) (b_ignore_trailing b)
    (b_fight_start b) (b_windows b) (b_default_target b) (b_priority b) (b_timed b) (b_sequence b) d
    pr qu stamps (b_targets b).

(** Returns the builder after the call; the queue returned to the caller is its
    [b_queue]. *)
Definition get_skill_timing (b0 : builder) : res builder :=
  let b := with_windows b0 (process_downtime_windows b0) in
  let* p1 := process_q_sequence b q_init (b_dots b) [] (b_stamps b) in
  let* p2 := process_q_timed b (si_queue (pa_sim p1)) (si_dots (pa_sim p1)) (pa_press p1) (pa_stamps p1) in
  let q2 := si_queue (pa_sim p2) in
  let last := if b_ignore_trailing b then get_last_event_time q2 else None in
  let* q3 := process_all_dots (b_snap_dots b) (si_dots (pa_sim p2)) last q2 in
  let* q4 := if b_autos b then add_autos b (pa_stamps p2) last q3 else Ok q3 in
  let* (q5, pr) := match b_fight_start b with
                   | None => shift_timelines q4 (pa_press p2)
                   | Some _ => Ok (q4, pa_press p2)
                   end in
  let* q6 := remove_damage_during_downtime (b_windows b) q5 in
  Ok (with_results b (si_dots (pa_sim p2)) (sort_by pr_time pr) q6 (pa_stamps p2)).

(** Lines 113-116 *)
Definition get_button_press_timing (b : builder) : list press := sort_by pr_time (b_press b).
