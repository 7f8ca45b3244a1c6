(** * C22, C23: auto attacks *)

From Coq Require Import ZArith QArith List String Bool Permutation Sorted.
From Verif Require Import Base Float Types Lookup StatusEffect Channeling Stats Library Events Rotation SpecQueue SpecTrackers SpecPlay
  SpecTimeline SpecDots SpecAuto SpecRun RunProps RunCounter AutoProps RunStories FuelFacts AutoCounter TimelineProps SpecSettings SettingsFacts Fixtures.
Import ListNotations.
Open Scope string_scope.
Open Scope Z_scope.

(** C22: the timeline is the presses, the ticks and the auto attacks [hits]. *)
Theorem C22_timeline_autos b b' :
  built b -> b_autos b = true -> get_skill_timing b = Ok b' ->
  exists slog tlog ticks au hits calls d last first,
    rotation_played b slog tlog
    /\ shows_timeline b b' (flat_map press_entries (slog ++ tlog) ++ ticks ++ calls) d
    /\ (b_fight_start b <> None -> d = 0)
    /\ (b_ignore_trailing b = false -> last = None)
    /\ (b_ignore_trailing b = true -> latest (map entry (flat_map press_entries (slog ++ tlog))) last)
    /\ first_ticks (b_snap_dots b) first
    /\ (distinguishable (flat_map press_dots (slog ++ tlog)) ->
        small_times (b_snap_dots b) (flat_map press_dots (slog ++ tlog)) ->
        exists ks, effects_of (flat_map press_dots (slog ++ tlog)) ks
          /\ all_ticks first last (flat_map press_dots (slog ++ tlog)) ks ticks)
    /\ autos_delivered b (map press_stamp (slog ++ tlog)) (map entry (flat_map press_entries (slog ++ tlog) ++ ticks)) last
         au hits calls.
Proof. exact (autos_shown b b'). Qed.
Print Assumptions C22_timeline_autos.

(** A new builder has the settings asked for and nothing else. *)
Theorem C22_init st lib snap autos tr start w dt b :
  rb_init st lib snap autos tr start w dt = Ok b ->
  b_stats b = st /\ b_library b = lib /\ b_snap_dots b = snap /\ b_autos b = autos /\ b_ignore_trailing b = tr /\ b_fight_start b = start
  /\ b_default_target b = dt /\ b_timed b = [] /\ b_sequence b = [] /\ b_targets b = [] /\ q_heap (b_queue b) = [] /\ get_button_press_timing b = [].
Proof. exact (init_keeps st lib snap autos tr start w dt b). Qed.
Print Assumptions C22_init.

(** Setting a flag later is as good as asking for it at the start, and as good before other
    calls as after them. *)
Theorem C22_set st lib snap autos tr start w dt b :
  rb_init st lib snap autos tr start w dt = Ok b ->
  (forall x, rb_init st lib snap x tr start w dt = Ok (set_enable_autos b x))
  /\ (forall x, rb_init st lib snap autos x start w dt = Ok (set_ignore_trailing_dots b x)).
Proof. exact (set_as_init st lib snap autos tr start w dt b). Qed.
Print Assumptions C22_set.
Theorem C22_set_any_time b f : (exists x, f = fun b => set_enable_autos b x) \/ (exists x, f = fun b => set_ignore_trailing_dots b x) ->
  (forall name m job n tg, add_next (f b) name m job n tg = then_set f (add_next b name m job n tg))
  /\ (forall t name m job tg, add (f b) t name m job tg = then_set f (add b t name m job tg)).
Proof. exact (set_any_time b f). Qed.
Print Assumptions C22_set_any_time.
Example C22_case_set : exists b, fx_builder false false (Some 0) (RWTuple []) = Ok b /\ b_autos (set_enable_autos b true) = true
  /\ fx_builder true false (Some 0) (RWTuple []) = Ok (set_enable_autos b true).
Proof. eexists. split; [vm_compute; reflexivity|]. split; vm_compute; reflexivity. Qed.

(** The first auto comes with the first damage; all apply before the last event, and no
    further one would; they keep their distance, more only if a cast, a channel or
    downtime is in the way; the distance is the weapon delay under the effects in force;
    they hit the main target. *)
Theorem C22_schedule b b' :
  built b -> b_autos b = true -> get_skill_timing b = Ok b' ->
  exists slog tlog ticks au spec hits d first last,
    let log := (slog ++ tlog)%list in
    let delay := application_delay spec in
    let base := map entry (flat_map press_entries log ++ ticks) in
    rotation_played b slog tlog
    /\ auto_skill b au /\ sk_timing au = COne spec
    /\ shows_timeline b b' (flat_map press_entries log ++ ticks ++ map (hit_call au delay) hits) d
    /\ (b_fight_start b <> None -> d = 0)
    /\ earliest_damage base first
    /\ (b_ignore_trailing b = false -> latest base (Some last))
    /\ (b_ignore_trailing b = true -> forall t, latest (map entry (flat_map press_entries log)) (Some t) -> last = t)
    /\ (distinguishable (flat_map press_dots log) -> small_times (b_snap_dots b) (flat_map press_dots log) ->
        exists t, (b_ignore_trailing b = false -> t = None)
          /\ (b_ignore_trailing b = true -> latest (map entry (flat_map press_entries log)) t)
          /\ ticks_delivered (b_snap_dots b) t (flat_map press_dots log) ticks)
    /\ (last <= first + delay -> hits = [])
    /\ (first + delay < last -> exists h l, hits = h :: l /\ hit_time h = first)
    /\ (forall h, In h hits -> hit_time h + delay < last)
    /\ (forall pre h, hits = (pre ++ [h])%list ->
          next_auto b (hit_target h) (hit_time h + hit_gap h) Inf
          \/ exists t', next_auto b (hit_target h) (hit_time h + hit_gap h) (Fin t') /\ last <= t' + delay)
    /\ (forall pre h h' post, hits = (pre ++ h :: h' :: post)%list ->
          next_auto b (hit_target h) (hit_time h + hit_gap h) (Fin (hit_time h'))
          /\ hit_time h + hit_gap h <= hit_time h'
          /\ (~ in_downtime (SpecTimeline.windows_of b (hit_target h)) (hit_time h + hit_gap h) DC_AUTO ->
              (forall ps p, get_no_auto_periods b = Ok ps -> In p ps -> ~ covers p (hit_time h + hit_gap h)) ->
              hit_time h' = hit_time h + hit_gap h))
    /\ (forall pre h post, hits = (pre ++ h :: post)%list ->
          exists buffs debuffs, hit_gap h = hasted_delay (b_stats b) buffs debuffs
            /\ auto_effects b (base ++ map entry (map (hit_call au delay) (pre ++ [h]))) (hit_time h) au buffs debuffs)
    /\ (Forall (fun h => 0 <= hit_gap h) hits ->
        forall h, In h hits -> main_target (map press_stamp log) (hit_time h) (hit_target h)).
Proof. exact (run_schedule b b'). Qed.
Print Assumptions C22_schedule.

(** The loops of a run end; the one over autos might not only if the delay under the
    effects in force is below 10 ms. *)
Theorem C22_ends b :
  get_skill_timing b = Err OutOfFuel ->
  b_autos b = true
  /\ exists au evs t buffs debuffs,
       auto_skill b au /\ auto_effects b evs t au buffs debuffs /\ hasted_delay (b_stats b) buffs debuffs < 10.
Proof. exact (endless_run b). Qed.
Print Assumptions C22_ends.

(** C23.  The periods in which no auto may happen are the channels, and the casts of the
    presses given a time; where none of them ends inside another, no auto but the
    first is inside one.  Casts queued with [add_next] are missing, see below. *)
Theorem C23_periods_partial b ps :
  get_no_auto_periods b = Ok ps ->
  exists tk order channels casts,
    new_trackers (b_library b) (st_job (b_stats b)) (b_priority b) = Ok tk
    /\ Permutation (b_timed b) order
    /\ (StronglySorted (fun x y => tm_time x <= tm_time y) (b_timed b) -> StronglySorted (fun x y => tm_time x <= tm_time y) order)
    /\ channel_run (map use_of order) = Ok channels
    /\ cast_periods (b_stats b) (b_default_target b) tk order casts
    /\ Permutation ps (channels ++ casts).
Proof. exact (no_auto_periods_spec b ps). Qed.
Print Assumptions C23_periods_partial.

Theorem C23_kept_out_partial b b' :
  built b -> b_autos b = true -> get_skill_timing b = Ok b' ->
  exists slog tlog ticks au spec hits d,
    rotation_played b slog tlog
    /\ auto_skill b au /\ sk_timing au = COne spec
    /\ shows_timeline b b' (flat_map press_entries (slog ++ tlog) ++ ticks ++ map (hit_call au (application_delay spec)) hits) d
    /\ forall pre h h' post ps,
         hits = (pre ++ h :: h' :: post)%list -> get_no_auto_periods b = Ok ps ->
         (separate_periods ps -> forall p, In p ps -> ~ inside p (hit_time h'))
         /\ (separate_windows (SpecTimeline.windows_of b (hit_target h)) -> (forall p, In p ps -> snd p <> Fin (hit_time h')) ->
             ~ in_downtime (SpecTimeline.windows_of b (hit_target h)) (hit_time h') DC_AUTO).
Proof. exact (run_kept_out b b'). Qed.
Print Assumptions C23_kept_out_partial.

(** An auto that would be in a downtime window all the same is dropped. *)
Theorem C23_not_in_downtime b b' e target :
  reachable b -> get_skill_timing b = Ok b' ->
  In e (timeline b') -> damages e DC_AUTO -> In target (ev_targets e) ->
  ~ in_downtime (SpecTimeline.windows_of b target) (ev_primary e) DC_AUTO.
Proof. exact (auto_not_in_downtime b b' e target). Qed.
Print Assumptions C23_not_in_downtime.

Theorem C23_queued_casts_refuted :
  ~ (forall b b' p e a, built b -> get_skill_timing b = Ok b' -> ~ auto_in_cast b' p e a).
Proof. exact queued_cast_refuted. Qed.
Print Assumptions C23_queued_casts_refuted.

Theorem C23_overlapping_casts_refuted :
  ~ (forall b b' ps e p, built b -> get_skill_timing b = Ok b' -> get_no_auto_periods b = Ok ps -> In e (timeline b') -> damages e DC_AUTO ->
       (exists e0, In e0 (timeline b') /\ damages e0 DC_AUTO /\ ev_primary e0 < ev_primary e) ->
       In p ps -> ~ inside p (ev_primary e)).
Proof. exact overlap_refuted. Qed.
Print Assumptions C23_overlapping_casts_refuted.

(** ** Examples *)

(** Hits at 0 s on A and 9 s on B, a cast at 3.5 s on B and A: autos at 0.5, 4.96
    (put off from 3.94 by the cast) and 8.4 s, the later ones on B. *)
Definition ex_autos : res builder :=
  and_add (and_add (and_add ax_builder 0 "Hit" None (Some "A")) (dec 3500 1000) "Cast" None (Some "B, A")) 9 "Hit" None (Some "B").
Example ex_autos_built : all_built ex_autos.
Proof. repeat apply and_add_built. apply init_built. Qed.
Example ex_autos_shown :
  match ex_autos with
  | Ok b => match get_skill_timing b with
            | Ok b' => b_autos b = true
                /\ get_no_auto_periods b = Ok [(3500, Fin 4960)]
                /\ map (fun e => (ev_primary e, ev_targets e))
                     (filter (fun e => String.eqb (sk_name (ev_skill e)) "Auto") (sort_by ev_primary (timeline b')))
                   = [(500, ["A"]); (4960, ["B"]); (8400, ["B"])]
            | Err _ => False
            end
  | Err _ => False
  end.
Proof. vm_compute. repeat split. Qed.
Example ex_autos_separate : separate_periods [(3500, Fin 4960)].
Proof. intros p p' e [<-|[]] [<-|[]] _ _. cbn. discriminate. Qed.

(** A weapon delay of 0 makes the loop over autos endless. *)
Definition ex_endless : res builder :=
  let* st := make_stats (q 126) (Some 0%Q) (q 2945) (q 1620) (q 1620) (q 2377) (q 708) "test_job" "test" None (q 5) None 90 in
  and_next (rb_init st fx_library None true false (Some 0) (RWTuple []) DEFAULT_TARGET) "Quick" 2 None.
Example ex_endless_shown : (let* b := ex_endless in get_skill_timing b) = Err OutOfFuel.
Proof. vm_compute. reflexivity. Qed.
