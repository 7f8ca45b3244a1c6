{"id": "C01", "title": "Event queue drains in priority order and conserves events", "statement": "Whatever sequence of add calls built a SnapshotAndApplicationEvents queue, repeatedly calling get_next until is_empty returns every added event exactly once, in non-decreasing order of (priority, skill name), and never fails before the queue is empty.", "quantifier": "every finite sequence of add calls, with any priorities, times, skills, modifiers and targets, and interleavings of add with get_next", "why_tests_cant": "The queue is a binary heap; a bug in sift order shows only for particular sizes and priority patterns, so no finite set of test queues settles it.", "anchors": ["ama_xiv_combat_sim/simulator/timeline_builders/snapshot_and_application_events.py: SnapshotAndApplicationEvents.add, get_next, is_empty, Event.__lt__"]}
{"id": "C02", "title": "get_q is a faithful sorted view", "statement": "get_q returns the same multiset of events as the queue, sorted by (priority, skill name), with events of equal key in the queue's own internal order, and leaves the queue itself unchanged (a later drain gives the same events).", "quantifier": "every queue reachable by adds and pops", "why_tests_cant": "Sortedness and conservation must hold for every size and every pattern of ties.", "anchors": ["ama_xiv_combat_sim/simulator/timeline_builders/snapshot_and_application_events.py: get_q"]}
{"id": "C03", "title": "Event ids are unique and sequential", "statement": "Events added without an explicit id receive ids 0,1,2,... in order of addition; no two such events in the timeline returned by RotationBuilder.get_skill_timing share an id.", "quantifier": "every sequence of adds; every rotation", "why_tests_cant": "Uniqueness over all histories cannot be sampled; DamageSimulator's snapshot lookup relies on it.", "anchors": ["ama_xiv_combat_sim/simulator/timeline_builders/snapshot_and_application_events.py: add", "ama_xiv_combat_sim/simulator/timeline_builders/rotation_builder.py: get_skill_timing", "ama_xiv_combat_sim/simulator/damage_simulator.py: __add_damage_snapshots"]}
{"id": "C04", "title": "Snapshot/application collapse rule", "statement": "An event added with equal snapshot and application time is stored with a single time and full buff and debuff snapshotting; an event with different times is stored with both times and its requested snapshot flags unchanged.", "quantifier": "every add call", "why_tests_cant": "Holds for all pairs of times and all flag combinations.", "anchors": ["ama_xiv_combat_sim/simulator/timeline_builders/snapshot_and_application_events.py: add"]}
{"id": "C05", "title": "First damage time and last event time are exact extrema", "statement": "get_first_damage_time is the minimum application time over events whose skill deals damage under its modifier (None iff there is none); get_last_event_time is the maximum application time over all events (None iff the queue is empty).", "quantifier": "every queue reachable by adds and pops, whatever its internal array order", "why_tests_cant": "Independence of the heap's internal order is a statement over all queues.", "anchors": ["ama_xiv_combat_sim/simulator/timeline_builders/snapshot_and_application_events.py: get_first_damage_time, get_last_event_time"]}
{"id": "C06", "title": "Condition strings denote sets", "statement": "A condition string denotes the set of its comma separated, whitespace-trimmed parts (the empty string denotes the empty set). Adding a condition string to a modifier yields exactly the union; adding twice equals adding once; the order of additions does not matter; joining a set of comma-free, trimmed, non-empty names with ', ' and re-parsing gives the same set back.", "quantifier": "all strings and all condition sets", "why_tests_cant": "Parsing must be right for every string: arbitrary whitespace, repeated, empty or missing parts.", "anchors": ["ama_xiv_combat_sim/simulator/utils.py: canonicalize_condition", "ama_xiv_combat_sim/simulator/skills/skill_modifier.py: SkillModifier.add_to_condition, remove_from_condition"]}
{"id": "C07", "title": "The most specific matching condition wins", "statement": "Given a non-empty collection of distinct condition keys and the active conditions, the selected key is a subset of the active conditions, no matching key is larger, among matching keys of that size the last declared one is taken, and no assertion failure is possible; if no key matches, the lookup raises KeyError unless the table declares a key consisting only of white space and commas.", "quantifier": "all finite collections of condition keys in any order and all active condition sets", "why_tests_cant": "The selection loop compares with the wrong length (the number of active conditions); that the result is nevertheless a maximal match, and how ties resolve, must be shown for every key order.", "anchors": ["ama_xiv_combat_sim/simulator/utils.py: get_best_key", "ama_xiv_combat_sim/simulator/skills/skill.py: Skill.get_damage_spec, get_timing_spec, get_buff_spec, get_debuff_spec, get_follow_up_skills, get_combo_spec, get_job_resource_spec"]}
{"id": "C08", "title": "Conditional specs resolve totally when a default exists", "statement": "If a skill's conditional table (of damage, timing, buff, debuff, combo, job-resource or follow-up specs) contains the default (empty) condition then every spec lookup succeeds under every modifier and returns a value declared in the table for a condition set contained in the active conditions; a plain (non-table) spec is returned under every modifier.", "quantifier": "all skills, tables and modifiers", "why_tests_cant": "Ranges over every combination of active conditions.", "anchors": ["ama_xiv_combat_sim/simulator/skills/skill.py: Skill.__post_init__, Skill.get_*_spec"]}
{"id": "C09", "title": "AoE falloff applies to every secondary target", "statement": "A skill declared with an AoE falloff d deals (1-d) times the primary potency to every target after the first, and full potency to the first.", "quantifier": "all skills with a falloff, all target counts, all active conditions", "why_tests_cant": "The claim ranges over all target counts and both ways to declare damage.", "anchors": ["ama_xiv_combat_sim/simulator/skills/skill.py: Skill.__process_aoe_dropoff", "ama_xiv_combat_sim/simulator/timeline_builders/damage_builder.py: get_damage_instances"]}
{"id": "C10", "title": "Patch lookup returns the newest entry not newer than the requested version", "statement": "Looking a version up in a version-keyed table returns the value of the greatest key that is less than or equal to the query in the key order used, None iff every key is greater, and does not depend on the declaration order of the table.", "quantifier": "all tables and queries", "why_tests_cant": "Must hold for every table and query; also whether the order used agrees with patch order (\"10.0\" after \"7.0\").", "anchors": ["ama_xiv_combat_sim/simulator/utils.py: get_greatest_val_less_than_query, get_greatest_dict_key_val_less_than_query", "ama_xiv_combat_sim/simulator/game_data/specific_skills.py: get_skill_data"]}
{"id": "C11", "title": "The skill library is a per-job finite map", "statement": "After any sequence of job selections and skill additions, get_skill(name, job) returns the skill most recently and only added under that name and job, raises KeyError when none was, adding a duplicate name to a job is rejected and changes nothing, and skills of one job never affect lookups of another; re-selecting a job keeps what was already registered.", "quantifier": "all sequences of set_current_job_class / add_skill / add_resource / add_combo_breaker / set_status_effect_priority", "why_tests_cant": "Statement over all histories of library construction.", "anchors": ["ama_xiv_combat_sim/simulator/skills/skill_library.py: SkillLibrary"]}
{"id": "C12", "title": "Sequenced button presses respect the GCD and never go backwards", "statement": "In a rotation built with add_next, press times are non-decreasing (animation locks being non-negative), and each GCD is pressed no earlier than the previous GCD's press plus that GCD's computed recast time, however many off-GCD actions lie between.", "quantifier": "all rotations built with add_next, all stats, all buffs active", "why_tests_cant": "Scheduling safety over unbounded action sequences and buff histories.", "anchors": ["ama_xiv_combat_sim/simulator/timeline_builders/rotation_builder.py: __process_q_sequence"]}
{"id": "C13", "title": "Default-recast GCDs are never closer than the 1.5s floor", "statement": "Two consecutive GCD presses in a sequence are at least 1500 ms apart whenever the first has the default 2500 ms base recast, under any haste buffs, traits and flat reductions.", "quantifier": "all sequences, stats, buffs, debuffs and traits", "why_tests_cant": "Haste sources compose multiplicatively without bound; a clamp in the wrong place only shows for some combinations.", "anchors": ["ama_xiv_combat_sim/simulator/timeline_builders/rotation_builder.py: __process_q_sequence lines 613-640"]}
{"id": "C14", "title": "Press, snapshot and application times are ordered", "statement": "For every processed skill the snapshot happens at press + max(0, cast - 500), application at press + cast + delay (delay reduced by 500 but not below zero when there is a cast), hence press <= snapshot <= application whenever the declared delay is non-negative; ignoring cast times makes the snapshot immediate; ignoring the delay makes application happen at the end of the cast.", "quantifier": "all skills, modifiers, stats and active buffs", "why_tests_cant": "Ranges over all cast times, including ones modified by any number of haste effects.", "anchors": ["ama_xiv_combat_sim/simulator/timeline_builders/rotation_builder.py: __process_skill, __get_cast_time"]}
{"id": "C15", "title": "Timed presses happen when asked", "statement": "Every add(t, ...) yields exactly one button press at the truncation of 1000*t milliseconds, the pressed skills are processed in non-decreasing time order whatever order they were added in, and get_button_press_timing reports every press exactly once sorted by time.", "quantifier": "all sequences of add / add_next calls in any order", "why_tests_cant": "Processing order comes from a heap over a list sorted by a coarser key than the heap uses.", "anchors": ["ama_xiv_combat_sim/simulator/timeline_builders/rotation_builder.py: add, __process_q_timed, get_button_press_timing"]}
{"id": "C16", "title": "DoT ticks of each application", "statement": "For each target and damage-over-time effect, the ticks caused by an application are exactly the times start, start+3000, ... that are strictly before both the effect's own end and the next application of the same effect to the same target; so ticks of successive applications never interleave and never double up, and every tick snapshots with the application that caused it.", "quantifier": "all histories of DoT applications on all targets", "why_tests_cant": "Consolidation depends on the whole history of re-applications, in any order of insertion.", "anchors": ["ama_xiv_combat_sim/simulator/timeline_builders/rotation_builder.py: __process_dot_follow_up_skill, __get_base_dot_timings, __get_consolidated_dot_timing, __process_all_dots"]}
{"id": "C17", "title": "DoT ticks align with the server tick", "statement": "When a server tick offset is given, every DoT tick time is congruent to the offset modulo 3000 ms, no tick precedes the application of its effect, and the first tick is less than 3000 ms after it; without an offset the first tick coincides with application.", "quantifier": "all rotations and all integer-millisecond offsets", "why_tests_cant": "Modular alignment for every offset, including negative times.", "anchors": ["ama_xiv_combat_sim/simulator/timeline_builders/rotation_builder.py: __process_all_dots lines 373-389"]}
{"id": "C18", "title": "Trailing DoT ticks are dropped on request", "statement": "With ignore_trailing_dots the timeline contains no DoT tick later than the last non-DoT event, and all earlier ticks are kept.", "quantifier": "all rotations", "why_tests_cant": "Depends on every event of the rotation.", "anchors": ["ama_xiv_combat_sim/simulator/timeline_builders/rotation_builder.py: __process_all_dots line 393, get_skill_timing"]}
{"id": "C19", "title": "Without a fight start time the first damage lands at zero", "statement": "With fight_start_time None and at least one damaging event, after get_skill_timing (before downtime removal) the earliest damage application is at time 0, and all pairwise time differences between snapshots, applications, button presses and scaled priorities are those of the unshifted timeline; with no damaging event nothing moves.", "quantifier": "all rotations", "why_tests_cant": "The shift is the result of a min over the whole timeline and must be applied uniformly.", "anchors": ["ama_xiv_combat_sim/simulator/timeline_builders/rotation_builder.py: shift_timelines_for_first_damage_instance, get_skill_timing"]}
{"id": "C20", "title": "Downtime removes exactly the damage inside the windows", "statement": "After get_skill_timing, an event's target remains iff the event deals no damage or neither its application nor its snapshot time lies in a half-open downtime window of that target applying to its damage class; an event disappears iff none of its targets remain; everything else about kept events is unchanged.", "quantifier": "all timelines, targets and window sets", "why_tests_cant": "Both directions (nothing wrongly kept, nothing wrongly dropped) over all timelines.", "anchors": ["ama_xiv_combat_sim/simulator/timeline_builders/rotation_builder.py: remove_damage_during_downtime, __filter_by_downtime_range_and_damage_class"]}
{"id": "C21", "title": "get_skill_timing can be called again", "statement": "Calling get_skill_timing twice on the same builder (with no additions in between and autos disabled) yields the same events: same times, skills, modifiers, targets and ids.", "quantifier": "all rotations", "why_tests_cant": "The builder keeps internal DoT state between calls; that replaying doubles no tick must hold for all rotations. get_per_skill_damage(rb) depends on it.", "anchors": ["ama_xiv_combat_sim/simulator/timeline_builders/rotation_builder.py: get_skill_timing, _q_dot_skills", "ama_xiv_combat_sim/simulator/damage_simulator.py: get_per_skill_damage"]}
{"id": "C22", "title": "Auto attacks fill the fight", "statement": "With autos enabled and a damaging event, the first auto snapshots at the first damage time, consecutive auto snapshots are at least the truncated hasted weapon delay apart, every auto applies strictly before the last event, and each auto targets the main target of the latest press not after it (the first press's target if none).", "quantifier": "all rotations whose weapon delay is at least 10 ms after haste", "why_tests_cant": "A loop over a timeline that is itself changing.", "anchors": ["ama_xiv_combat_sim/simulator/timeline_builders/rotation_builder.py: __add_autos, __get_next_auto_time"]}
{"id": "C23", "title": "Autos are not delivered while casting or channeling", "statement": "No auto attack snapshot produced after the first falls inside a cast or channel of the player, or inside a downtime window of its target.", "quantifier": "all rotations", "why_tests_cant": "Depends on all cast windows and their overlaps.", "anchors": ["ama_xiv_combat_sim/simulator/timeline_builders/rotation_builder.py: get_no_auto_periods, __get_next_auto_time, forward_to_next_non_downtime_time"]}
{"id": "C24", "title": "A status effect counts exactly when it should", "statement": "After expiry at time t, compiling buffs (or a target's debuffs) for a skill uses exactly the effects that have started, whose end time has not passed, that have uses left, are not on the skill's denylist, allow the skill, and are not suppressed by an active higher-priority effect; the compiled multipliers and additions are the product/sum over exactly these.", "quantifier": "all histories of applications, expirations and compilations", "why_tests_cant": "Interaction of dozens of effects over time; over all histories.", "anchors": ["ama_xiv_combat_sim/simulator/trackers/status_effect_tracker.py: StatusEffectTracker"]}
{"id": "C25", "title": "Re-applying an effect extends it up to its cap", "statement": "Re-applying an active extendable effect makes it end at now + min(max_duration, remaining + duration), a non-extending one keeps its remaining time, uses add up to the cap max_num_uses, the start time is kept, an extend-only effect never creates itself, and no other effect changes except those the applied effect declares to end or to clear.", "quantifier": "all tracker states", "why_tests_cant": "All combinations of remaining time, caps and infinities.", "anchors": ["ama_xiv_combat_sim/simulator/trackers/status_effect_tracker.py: __add_to_status_effects"]}
{"id": "C26", "title": "An effect with n uses affects n skills", "statement": "An effect applied with n uses is included in exactly the next n compilations it is valid for and none afterwards, if expiry is performed before each compilation.", "quantifier": "all n and all sequences of compilations", "why_tests_cant": "Induction over n; off-by-one errors hide from single examples.", "anchors": ["ama_xiv_combat_sim/simulator/trackers/status_effect_tracker.py: __compile_status_effects, __expire_status_effects"]}
{"id": "C27", "title": "Debuffs stay on their targets", "statement": "Applying, compiling or using up debuffs on one target never changes the debuffs of a target that was not hit, and buffs are unaffected by debuff compilation.", "quantifier": "all tracker states, skills and target lists", "why_tests_cant": "Frame property over all states.", "anchors": ["ama_xiv_combat_sim/simulator/trackers/status_effect_tracker.py: add_to_status_effects, compile_debuffs, __get_debuffs"]}
{"id": "C28", "title": "Combos succeed exactly after a fresh predecessor", "statement": "A combo action succeeds iff it auto-succeeds, is forced, has no predecessor, or the last action recorded for its group is one of its predecessors and was used at most 30 s ago; a failed combo action or a breaker clears the group; actions of other groups do not.", "quantifier": "all histories of actions", "why_tests_cant": "State machine over unbounded histories.", "anchors": ["ama_xiv_combat_sim/simulator/trackers/combo_tracker.py: ComboTracker"]}
{"id": "C29", "title": "Job resources stay within bounds and follow their history", "statement": "The amount reported for a resource is always between 0 and its maximum and equals the clamped running sum over the gains and losses active at the time; a resource whose last refresh (unless that was at time 0) is further back than its expiry is reported as 0.", "quantifier": "all resource histories and query times", "why_tests_cant": "Running clamped sums over unbounded histories.", "anchors": ["ama_xiv_combat_sim/simulator/trackers/job_resource_tracker.py: JobResourceTracker"]}
{"id": "C30", "title": "Channeling windows are disjoint and bounded", "statement": "For time-ordered skill uses the recorded channel windows are ordered, do not overlap, each starts at a channeling skill's use and lasts at most that skill's channel duration; a window is cut by the first non-allowed skill or when its allowed uses run out.", "quantifier": "all time-ordered skill sequences", "why_tests_cant": "Unbounded sequences.", "anchors": ["ama_xiv_combat_sim/simulator/trackers/channeling_tracker.py: ChannelingTracker"]}
{"id": "C31", "title": "Every damaging event yields one damage instance per target", "statement": "get_damage_instances always terminates; when it returns, the event queue is empty, the instances returned are sorted by time, and each event of the timeline contributes exactly one instance per target for which its skill has a damage spec under its final modifier, at its application time plus 135 ms times the target's position (for multi-target events), carrying that event's id.", "quantifier": "all timelines", "why_tests_cant": "Events are re-inserted into the queue while it is drained; conservation must hold for every timeline.", "anchors": ["ama_xiv_combat_sim/simulator/timeline_builders/damage_builder.py: get_damage_instances"]}
{"id": "C32", "title": "Snapshotting decides which effects apply", "statement": "For an event with distinct snapshot and application times, buffs (debuffs) are those valid at the snapshot when the corresponding flag is set and those valid at application otherwise; effects granted by a skill itself never apply to that same hit.", "quantifier": "all timelines and tracker states", "why_tests_cant": "Depends on interleavings of snapshots and applications of all other events.", "anchors": ["ama_xiv_combat_sim/simulator/timeline_builders/damage_builder.py: get_damage_instances"]}
{"id": "C33", "title": "Follow-ups are processed after their parent and in declared order", "statement": "Follow-up skills take effect after their parent and in the order in which they are declared.", "quantifier": "all skills with follow-ups", "why_tests_cant": "Order must hold for all delays and snapshot flags, including equal application times.", "anchors": ["ama_xiv_combat_sim/simulator/timeline_builders/rotation_builder.py: _process_follow_up_skills (comment line 291)", "ama_xiv_combat_sim/simulator/timeline_builders/damage_builder.py: get_damage_instances lines 138-144", "ama_xiv_combat_sim/simulator/skills/skill.py: comment lines 35-38"]}
{"id": "C34", "title": "Base damage is well defined and at least one", "statement": "Base damage is None iff the skill has no damage spec under the modifier, 0 iff the potency is 0, and otherwise at least 1, for every damage class.", "quantifier": "all stats, skills, modifiers and status effects for which the computation does not raise", "why_tests_cant": "Holds for all numeric inputs of long floor/multiply chains.", "anchors": ["ama_xiv_combat_sim/simulator/calcs/compute_damage_utils.py: get_base_damage"]}
{"id": "C35", "title": "More is never worse", "statement": "Base damage is non-decreasing in potency and in every number given to Stats: weapon damage and delay, main stat, determination, direct hit, crit, speed, tenacity, roles in the party and healer strength, for every damage class and including double rounding.", "quantifier": "all non-negative numeric inputs", "why_tests_cant": "Monotonicity of chains of rounded products and floors over all inputs.", "anchors": ["ama_xiv_combat_sim/simulator/calcs/compute_damage_utils.py: compute_direct_damage, compute_magical_dot_damage, compute_physical_dot_damage, compute_auto_damage, compute_pet_damage", "ama_xiv_combat_sim/simulator/calcs/stat_fns.py"]}
{"id": "C36", "title": "Forced crit / direct hit override rates", "statement": "If any source forces a crit (direct hit) the rate is 1, if any source forbids it the rate is 0, if both happen an error is raised, otherwise the rate is the base rate plus the buff and debuff additions; forced hits add a bonus multiplier from rate buffs.", "quantifier": "all combinations of sources and rates", "why_tests_cant": "All combinations.", "anchors": ["ama_xiv_combat_sim/simulator/calcs/compute_damage_utils.py: compute_crit_rates_and_bonuses, get_guaranteed_dh_and_crit_bonus_dmg"]}
{"id": "C37", "title": "Outcome probabilities form a distribution", "statement": "For each damage instance the four outcome probabilities sum to 1 up to double rounding (within 2^-51 for rates in [0,1]) and, when the crit and direct-hit rates lie in [0,1], each lies in [0,1]; outside that range some probability is negative. Each is, to within 2^-51 of it, the product of the rate of its crit or no crit and the rate of its direct hit or none.", "quantifier": "all rates", "why_tests_cant": "Over all rationals.", "anchors": ["ama_xiv_combat_sim/simulator/trackers/damage_tracker.py: get_damage_ranges_and_probabilities"]}
{"id": "C38", "title": "Sampled damage lies in the reported range", "statement": "For every damage instance and every random draw, as long as no draw behind the reported range is exactly 0, the sampled damage lies between the low and high damage reported by get_damage_ranges for the drawn crit / direct-hit outcome, in double precision.", "quantifier": "all base damages, bonuses, multipliers and draws in [0,1)", "why_tests_cant": "Random draws cannot be exhausted; rounding could break the bounds.", "anchors": ["ama_xiv_combat_sim/simulator/trackers/damage_tracker.py: __get_damage, get_damage_ranges_and_probabilities"]}
{"id": "C39", "title": "Expected damage lies in the range and variance is non-negative", "statement": "Up to the double rounding of the probabilities, the expected damage of an instance lies between the least low and the greatest high of its outcomes and its variance is non-negative (at least -2^-51 times the squared mean), for rates in [0,1]. Both are the moments of drawing an outcome by its probability and then a number of its range uniformly.", "quantifier": "all instances", "why_tests_cant": "Convexity over all rates.", "anchors": ["ama_xiv_combat_sim/simulator/damage_simulator.py: __get_expected_damage_and_variance_per_damage_instance"]}
{"id": "C40", "title": "Kill time is the first moment cumulative damage reaches boss HP", "statement": "For each sample the reported kill time is the earliest damage time at which the cumulative damage in time order is at least the boss HP; samples that never reach it are reported as None at the end; the number of results equals the number of samples; raising boss HP never makes a kill earlier.", "quantifier": "all damage matrices, time vectors and HP values", "why_tests_cant": "All orders of merged rotations.", "anchors": ["ama_xiv_combat_sim/kill_time_estimator/kill_time_estimator.py: estimate_kill_time"]}
{"id": "C41", "title": "Simulation capacity", "statement": "Simulating any number of damage instances succeeds.", "quantifier": "all instance counts", "why_tests_cant": "The storage is a fixed-size array.", "anchors": ["ama_xiv_combat_sim/simulator/trackers/damage_tracker.py: add_damage, finalize"]}
{"id": "C42", "title": "Targets are parsed per press and default correctly", "statement": "A press's targets are the comma separated, trimmed parts of the target string in order (never empty), the builder's default target when omitted; an unknown skill raises KeyError and leaves the rotation unchanged.", "quantifier": "all target strings and builders", "why_tests_cant": "All strings.", "anchors": ["ama_xiv_combat_sim/simulator/timeline_builders/rotation_builder.py: __process_and_check_targets, add, add_next"]}
{"id": "C43", "title": "add_next with num_times is repetition", "statement": "add_next(s, num_times=n) leaves the builder in the same state as n consecutive add_next(s) calls (for n >= 1).", "quantifier": "all n and builders", "why_tests_cant": "All n.", "anchors": ["ama_xiv_combat_sim/simulator/timeline_builders/rotation_builder.py: add_next"]}
{"id": "C44", "title": "Faster stats never make actions slower", "statement": "Computed cast and recast times are non-increasing in the speed stat, and for speeds up to 15000 non-decreasing in the base time and never negative for non-negative bases; at base speed they equal the base truncated to 10 ms or one millisecond less.", "quantifier": "all speed stats and base times at each supported level", "why_tests_cant": "Monotonicity through ceil, floor and double rounding over all inputs.", "anchors": ["ama_xiv_combat_sim/simulator/calcs/stat_fns.py: get_time_using_speed_stat", "ama_xiv_combat_sim/simulator/timeline_builders/rotation_builder.py: __get_cast_time", "ama_xiv_combat_sim/simulator/utils.py: truncate_to_digit"]}
{"id": "C45", "title": "Positional inference only adds conditions", "statement": "Inferring the positional condition never removes an active condition, returns a condition whose bonus percentage equals the logged one when it returns by search, adds 'No Positional' when the logged bonus is 0, and leaves skills without a 'No Positional' variant untouched.", "quantifier": "all skills and modifiers", "why_tests_cant": "All tables and bonus values.", "anchors": ["ama_xiv_combat_sim/simulator/utils.py: get_positional_condition"]}
{"id": "C46", "title": "CSV import adds one press per row", "statement": "Populating a rotation from rows adds exactly one timed press per row in order, with the row's condition, job and targets, omitted fields defaulting.", "quantifier": "all row lists", "why_tests_cant": "All row lists.", "anchors": ["ama_xiv_combat_sim/simulator/rotation_import_utils/csv_utils.py: populate_rotation_from_csv"]}
{"id": "C47", "title": "Every damage instance traces back to an event", "statement": "Every damage instance's event id is the id of an event of the timeline given to the damage builder, with the same skill; so get_per_skill_damage(rb) finds the snapshot time of each instance when the rotation is rebuilt identically.", "quantifier": "all rotations", "why_tests_cant": "All rotations.", "anchors": ["ama_xiv_combat_sim/simulator/timeline_builders/damage_builder.py: get_damage_instances", "ama_xiv_combat_sim/simulator/damage_simulator.py: __add_damage_snapshots"]}
{"id": "C48", "title": "A damage builder does not leak state between rotations", "statement": "Calling get_damage_instances on one DamageBuilder for a second rotation gives the same result as a fresh builder.", "quantifier": "all pairs of rotations", "why_tests_cant": "State carried across calls depends on the whole first rotation.", "anchors": ["ama_xiv_combat_sim/simulator/timeline_builders/damage_builder.py: DamageBuilder.__init__, get_damage_instances"]}
{"id": "C49", "title": "Damage by time never decreases and ends at the total", "statement": "get_all_damage_snapshots_before_timestamp(l, t) is the sum of the expected damage of the instances with snapshot time at most 1000*t and does not decrease in t when damages are not negative; get_dps_at_intervals lists the positive multiples of the interval before the last snapshot in order and then the last snapshot time, and its last entry is the total expected damage.", "quantifier": "all lists of instances, times and positive intervals", "why_tests_cant": "All lists of instances, and double rounding of every snapshot time.", "anchors": ["ama_xiv_combat_sim/rotation_analysis/rotation_analysis_utils.py: get_all_damage_snapshots_before_timestamp, get_dps_at_intervals"]}
{"id": "C50", "title": "Example rotations press every skill once", "statement": "get_example_rotation_with_rb adds one timed press per party skill, with its modifier if it has one, and then one sequenced press per skill, in order.", "quantifier": "all rotations of the rotation library and all builders", "why_tests_cant": "All lists of skills.", "anchors": ["ama_xiv_combat_sim/example_rotations/example_rotation_utils.py: get_example_rotation_with_rb"]}
{"id": "C51", "title": "Building damage never raises", "statement": "get_damage_instances returns for every timeline of a rotation builder with a new damage builder.", "quantifier": "all rotations", "why_tests_cant": "Comparisons happen only when two hits fall on the same millisecond and meet in the heap.", "anchors": ["ama_xiv_combat_sim/simulator/timeline_builders/damage_builder.py: get_damage_instances"]}
{"id": "C52", "title": "Which versions and levels load", "statement": "create_skill_library(version, level) returns exactly for level 90 with version '6.55' or any version string not before '7.0', and for level 100 with any version string not before '7.0'; everything else raises.", "quantifier": "all version strings and levels", "why_tests_cant": "Infinitely many version strings; each job class has its own checks, data tables and version branches.", "anchors": ["ama_xiv_combat_sim/simulator/game_data/create_skill_library.py: create_skill_library", "ama_xiv_combat_sim/simulator/game_data/class_skills"]}
{"id": "C53", "title": "A loaded library has all jobs with their skills", "statement": "A loaded library carries the requested version and level, has the 19 jobs of Endwalker and from '7.0' on also PCT and VPR, each with exactly the skills its class declares, the generic skills and its limit breaks, and at least one skill of its own.", "quantifier": "all supported versions and levels", "why_tests_cant": "Version branches are taken inside hundreds of skill methods; versions without special cases are never tested.", "anchors": ["ama_xiv_combat_sim/simulator/game_data/create_skill_library.py: create_skill_library", "ama_xiv_combat_sim/simulator/skills/skill_library.py: add_all_skills_from"]}
{"id": "C54", "title": "Looking up a shipped skill never raises", "statement": "For every skill of every job, and every follow-up of it, and every skill modifier, all get_*_spec lookups return; get_follow_up_skills does too, except that of MCH's Automaton Queen, which raises KeyError without a gauge condition. Every skill a rotation can press has a timing spec.", "quantifier": "all supported versions and levels, skills, follow-ups and skill modifiers", "why_tests_cant": "Conditions are arbitrary sets of strings, so the modifiers cannot be enumerated.", "anchors": ["ama_xiv_combat_sim/simulator/skills/skill.py: Skill.get_damage_spec, get_timing_spec, get_follow_up_skills", "ama_xiv_combat_sim/simulator/game_data/class_skills"]}
{"id": "C55", "title": "Shipped numbers are sane", "statement": "No shipped skill has a negative potency, damage multiplier, cast time, recast time, animation lock, application delay or follow-up delay; effects have non-negative durations and uses within their maximum, positive damage multipliers and haste below 1; a follow-up has a DoT duration exactly if it deals DoT damage, and it is a positive multiple of 3 s except for MCH's Flamethrower.", "quantifier": "all supported versions and levels, skills and follow-ups, under every condition", "why_tests_cant": "Over a thousand skills with several versions and conditions each.", "anchors": ["ama_xiv_combat_sim/simulator/game_data/class_skills"]}
{"id": "C56", "title": "Shipped combos can be completed", "statement": "Every combo action a shipped skill requires is a skill of the same job that sets the same combo group.", "quantifier": "all supported versions and levels, skills and combo specs", "why_tests_cant": "A misspelt action name only shows as a combo that silently fails.", "anchors": ["ama_xiv_combat_sim/simulator/game_data/class_skills", "ama_xiv_combat_sim/simulator/trackers/combo_tracker.py: compile_and_update_combo"]}
{"id": "C57", "title": "Shipped resource changes name declared resources", "statement": "Every job resource a shipped skill changes is one the job declares, unless the change clears all resources.", "quantifier": "all supported versions and levels, skills, follow-ups and conditions", "why_tests_cant": "A misspelt resource raises only when that skill is used under that condition.", "anchors": ["ama_xiv_combat_sim/simulator/game_data/class_skills", "ama_xiv_combat_sim/simulator/trackers/job_resource_tracker.py: add_resource"]}
{"id": "C58", "title": "Restricted shipped effects reach a skill", "statement": "Every shipped status effect with an allow list names at least one skill of its job.", "quantifier": "all supported versions and levels and effects", "why_tests_cant": "An allow list that matches nothing does not raise; the effect is just never used.", "anchors": ["ama_xiv_combat_sim/simulator/game_data/class_skills", "ama_xiv_combat_sim/simulator/trackers/status_effect_tracker.py: compile_buffs"]}
{"id": "C59", "title": "Shipped effects that only add a condition change some skill", "statement": "If a shipped status effect does nothing but add its name to the skill condition, some skill it can reach distinguishes that name; and an off-class default condition is one the skill distinguishes.", "quantifier": "all supported versions and levels and effects", "why_tests_cant": "A misspelt condition does not raise; the effect silently does nothing.", "anchors": ["ama_xiv_combat_sim/simulator/game_data/class_skills", "ama_xiv_combat_sim/simulator/trackers/status_effect_tracker.py: compile_buffs", "ama_xiv_combat_sim/simulator/skills/skill.py: off_class_default_condition"]}
{"id": "C60", "title": "Missing a shipped combo or positional is never better", "statement": "Adding 'No Combo' or 'No Positional' to the condition of a use of a shipped skill never raises its potency, that of its follow-up skills counted.", "quantifier": "all supported versions and levels, skills and skill modifiers", "why_tests_cant": "Depends on which table key wins for every set of conditions.", "anchors": ["ama_xiv_combat_sim/simulator/game_data/class_skills", "ama_xiv_combat_sim/simulator/skills/skill.py: get_damage_spec"]}
{"id": "C61", "title": "Waits and deaths on every job", "statement": "Every job has a skill 'Wait x.xxs' for each multiple of 10 ms below 10 s that only locks for that long, and Death, Weakness and Brink of Death, which clear status effects, combos and job resources.", "quantifier": "all supported versions and levels, jobs and wait lengths", "why_tests_cant": "Names are made by float formatting for a thousand lengths on each job.", "anchors": ["ama_xiv_combat_sim/simulator/game_data/add_generic_skills_to_library.py"]}
{"id": "C62", "title": "Versions matter only by their place among the patches", "statement": "Two supported versions that compare alike with '6.55', '7.0', '7.01', '7.05' and '7.1' give libraries with the same skills, priorities, resources and combo breakers.", "quantifier": "all pairs of version strings and all levels", "why_tests_cant": "Infinitely many version strings.", "anchors": ["ama_xiv_combat_sim/simulator/game_data/create_skill_library.py: create_skill_library", "ama_xiv_combat_sim/simulator/game_data/class_skills"]}
{"id": "C63", "title": "Building a rotation raises nothing when every press can be made", "statement": "get_skill_timing returns if each pressed skill and follow-up has a value for every condition and changes only resources the job declares, no two different effects force crits or direct hits for one skill, logged positional bonuses can be matched, and, with auto attacks, some pressed skill hits, the job has an auto attack, downtime ends at whole milliseconds and auto attacks stay at least 10 ms apart.", "quantifier": "all rotation builders the API can produce, all skill libraries, conditions and interleavings of effects", "why_tests_cant": "Any effect active at any moment can change the condition of any later skill; tests try a handful of rotations.", "anchors": ["ama_xiv_combat_sim/simulator/timeline_builders/rotation_builder.py: get_skill_timing", "ama_xiv_combat_sim/simulator/skills/skill.py", "ama_xiv_combat_sim/simulator/trackers/status_effect_tracker.py", "ama_xiv_combat_sim/simulator/trackers/job_resource_tracker.py"]}
{"id": "C64", "title": "Any rotation of shipped skills can be built", "statement": "get_skill_timing returns for every rotation of skills from create_skill_library pressed at any times, in any order, with any conditions.", "quantifier": "all supported versions and levels, jobs, gear and rotations", "why_tests_cant": "Unboundedly many rotations; whether a rotation raises depends on which conditions meet which skills.", "anchors": ["ama_xiv_combat_sim/simulator/timeline_builders/rotation_builder.py: get_skill_timing", "ama_xiv_combat_sim/simulator/game_data/create_skill_library.py: create_skill_library", "ama_xiv_combat_sim/simulator/game_data/class_skills"]}
{"id": "C65", "title": "Every shipped example rotation runs", "statement": "For every library of create_skill_library, get_example_rotations returns, and get_skill_timing returns for each of its rotations.", "quantifier": "all supported versions and levels and all example rotations", "why_tests_cant": "Example rotations name hundreds of skills by string, looked up in a library that depends on version and level; the project has no test of them.", "anchors": ["ama_xiv_combat_sim/example_rotations/get_example_rotations.py: get_example_rotations", "ama_xiv_combat_sim/example_rotations/example_rotation_utils.py", "ama_xiv_combat_sim/simulator/timeline_builders/rotation_builder.py: get_skill_timing", "ama_xiv_combat_sim/simulator/game_data/create_skill_library.py: create_skill_library"]}
{"id": "C66", "title": "Example rotations are of the library's level", "statement": "The stats of each rotation get_example_rotations returns are of the level of the skill library.", "quantifier": "all supported versions and levels and all example rotations", "why_tests_cant": "A wrong level raises nothing; damage and cast times are just off.", "anchors": ["ama_xiv_combat_sim/example_rotations/specific_rotations.py: get_stats", "ama_xiv_combat_sim/simulator/stats.py: Stats"]}
{"id": "C67", "title": "get_example_rotations returns exactly the rotations meant for the library", "statement": "The result has one rotation for each table entry whose level is the library's and whose version range includes the library's, in the order of the files, with the table's stats, auto attack choice, party skills and skills, on the given library.", "quantifier": "all libraries and all tables", "why_tests_cant": "A rotation left out or built from another table goes unnoticed.", "anchors": ["ama_xiv_combat_sim/example_rotations/get_example_rotations.py: get_example_rotations", "ama_xiv_combat_sim/example_rotations/specific_rotations.py: rotation_is_valid", "ama_xiv_combat_sim/example_rotations/example_rotation_utils.py"]}
{"id": "C68", "title": "Every job has an example rotation", "statement": "For a library of level 100 and patch 7.05 or later, every job has an example rotation; before 7.05 there is none at level 100.", "quantifier": "all supported versions at level 100, all jobs", "why_tests_cant": "Infinitely many version strings; coverage of jobs is nowhere asserted.", "anchors": ["ama_xiv_combat_sim/example_rotations/get_example_rotations.py: get_example_rotations", "ama_xiv_combat_sim/simulator/game_data/create_skill_library.py: create_skill_library"]}
{"id": "C69", "title": "Shipped skills are as strong as their job's data table says", "statement": "For every number a job's data table gives a skill of a create_skill_library library at its patch and level: pressing the skill (under 'No Combo' and 'No Positional' for those potencies) hits for the potency, its effects last for the duration and multiply damage by damage_mult, its DoT ticks for the duration and potency.", "quantifier": "all supported versions and levels, jobs, skills and table entries", "why_tests_cant": "Two places state the same number for hundreds of skills at seventeen patch and level combinations; a number left behind in one of them raises nothing.", "anchors": ["ama_xiv_combat_sim/simulator/game_data/specific_skills.py: get_skill_data", "ama_xiv_combat_sim/simulator/game_data/class_skills", "ama_xiv_combat_sim/simulator/game_data/create_skill_library.py: create_skill_library", "ama_xiv_combat_sim/simulator/skills/skill.py: get_damage_spec"]}
{"id": "C70", "title": "Only differences of times matter", "statement": "If a rotation's start, timed presses and downtime are all d ms later, get_skill_timing gives the same presses and events d ms later or raises the same exception, get_damage_instances the same instances d ms later, and the simulator the same expected damage, variance, sampled damage and DPS. Without a start and with timed presses only, not with both auto attacks and downtime, presses that do damage give the same result wherever they are. This is for jobs whose resources have no expiry (all shipped ones but BLM), without dropping trailing ticks and without server ticks.", "quantifier": "all libraries, stats, rotations with auto attacks and downtime, shifts d and random draws", "why_tests_cant": "Relates two runs with infinitely many pairs of times; an absolute time hidden in a tracker shows up only at particular moments (such as 0).", "anchors": ["ama_xiv_combat_sim/simulator/timeline_builders/rotation_builder.py: get_skill_timing", "ama_xiv_combat_sim/simulator/timeline_builders/damage_builder.py: get_damage_instances", "ama_xiv_combat_sim/simulator/damage_simulator.py: DamageSimulator", "ama_xiv_combat_sim/simulator/trackers/job_resource_tracker.py: compile_job_resources"]}
{"id": "C71", "title": "The past of a rotation does not depend on its future", "statement": "If more add_next calls, or add calls later than all earlier add calls, are made on a builder with a start time and get_skill_timing runs again from scratch, the presses reported before are all reported again with the same times, and with add_next alone they come first. Every event of the earlier presses except ticks and auto attacks is on the timeline again, unchanged. Without auto attacks and without dropping trailing ticks, the timeline before the first new press is the same, ticks included.", "quantifier": "all libraries, stats, rotations (no two add calls at one time), downtime and further calls", "why_tests_cant": "Relates two runs of unbounded length; a tracker that is not reset, a heap comparison or a look-ahead shows up only with particular pairs.", "anchors": ["ama_xiv_combat_sim/simulator/timeline_builders/rotation_builder.py: get_skill_timing", "ama_xiv_combat_sim/simulator/timeline_builders/rotation_builder.py: add", "ama_xiv_combat_sim/simulator/timeline_builders/rotation_builder.py: add_next"]}
{"id": "C72", "title": "Damage depends on the past only", "statement": "If two rotations' timelines have the same events beginning before T, get_damage_instances with trackers in the same state gives the same instances before T, with the same conditions, effects and ids. In particular it does for a rotation with a start time and the same rotation with more presses from T on, if there are no auto attacks and no skill has a damage-over-time effect. This is for timelines on which no two things under one name are due at the same time and priority, and on which whatever applies later than its snapshot has one target.", "quantifier": "all libraries, stats, timelines, tracker states and times T", "why_tests_cant": "Relates two runs of unbounded length; an effect that leaks backwards shows up only with particular pairs, as it does with ticks of a DoT that is applied again.", "anchors": ["ama_xiv_combat_sim/simulator/timeline_builders/damage_builder.py: get_damage_instances", "ama_xiv_combat_sim/simulator/timeline_builders/rotation_builder.py: get_skill_timing"]}
{"id": "C73", "title": "A sequence and its reported times say the same", "statement": "If add_next calls are made on a new builder without auto attacks and get_skill_timing reports their press times, all different, then add calls for the same presses at those times give the same timeline (events, ids) and the same presses; without a start time, at those times moved by one number. The rows print_button_press_timings_as_csv prints for presses on the default target, with default modifiers or conditions only, give the same when read by the CSV import, if every time survives the conversion to seconds and back.", "quantifier": "all libraries, stats, settings other than auto attacks, sequences of calls with non-negative animation locks", "why_tests_cant": "Two separate code paths (sequenced and timed) have to agree on trackers, snapshots, DoTs and targets for every rotation; no test compares them.", "anchors": ["ama_xiv_combat_sim/simulator/timeline_builders/rotation_builder.py: add_next", "ama_xiv_combat_sim/simulator/timeline_builders/rotation_builder.py: add", "ama_xiv_combat_sim/simulator/timeline_builders/rotation_builder.py: get_skill_timing", "ama_xiv_combat_sim/simulator/timeline_builders/rotation_builder.py: print_button_press_timings_as_csv", "ama_xiv_combat_sim/simulator/rotation_import_utils/csv_utils.py: populate_rotation"]}
{"id": "C74", "title": "The order of add calls does not matter", "statement": "On a builder without auto attacks, if no two add calls are at the same millisecond, then making the add calls in another order, before, between or after the add_next calls (these in their order), succeeds if it did before, and get_skill_timing gives the same timeline (events, ids) and the same presses.", "quantifier": "all libraries, stats, settings other than auto attacks, sequences of add and add_next calls and their reorderings", "why_tests_cant": "Relates factorially many orders of unboundedly many calls; the timed presses are kept in the order of the calls and popped as a heap, which is right only once they are sorted.", "anchors": ["ama_xiv_combat_sim/simulator/timeline_builders/rotation_builder.py: add", "ama_xiv_combat_sim/simulator/timeline_builders/rotation_builder.py: add_next", "ama_xiv_combat_sim/simulator/timeline_builders/rotation_builder.py: get_skill_timing", "ama_xiv_combat_sim/simulator/timeline_builders/rotation_builder.py: __process_q_timed"]}
{"id": "C75", "title": "A press that does nothing changes nothing else", "statement": "On a builder without auto attacks that keeps trailing ticks, take out one press of a skill without damage, effects, follow-ups, combos or resources, such as a Wait: get_skill_timing then gives the same events and presses, at the same times, less that press's own. This is for an add call when no two are at the same millisecond, and for a sequenced press of a skill off the GCD when the next press is a GCD later than the end of its lock. No effect with limited uses may count the press; in every supported library, none counts a Wait.", "quantifier": "all libraries, stats, settings other than these, rotations of add and add_next calls, and positions of the press", "why_tests_cant": "Relates two runs of unbounded length; what an idle press can touch (uses of effects, expiry, combos, queue ids) shows up only many presses later.", "anchors": ["ama_xiv_combat_sim/simulator/timeline_builders/rotation_builder.py: get_skill_timing", "ama_xiv_combat_sim/simulator/trackers/status_effect_tracker.py: compile_buffs", "ama_xiv_combat_sim/simulator/trackers/combo_tracker.py: compile_and_update_combo", "ama_xiv_combat_sim/simulator/trackers/job_resource_tracker.py: compile_job_resources", "ama_xiv_combat_sim/simulator/game_data/create_skill_library.py: create_skill_library"]}
{"id": "C76", "title": "The names of the targets do not matter", "statement": "Rename the targets, different ones differently, in every call that builds a rotation (default target, downtime windows, add, add_next): get_skill_timing gives the same timeline and presses, and get_damage_instances and DamageSimulator the same instances, effects, draws and report, with the targets renamed. This is for rotations in which presses of one skill at the same time name the same targets, and in which \"Default Target\" keeps its name or debuffs change no time, condition or forced outcome and no buff ends them. In every supported library debuffs are like this.", "quantifier": "all injective renamings, libraries, stats, settings, downtime, sequences of calls, and random draws", "why_tests_cant": "Relates two runs of unbounded length for infinitely many names; a hard-coded name or a comparison of names shows up only with particular targets and debuffs.", "anchors": ["ama_xiv_combat_sim/simulator/timeline_builders/rotation_builder.py: get_skill_timing", "ama_xiv_combat_sim/simulator/timeline_builders/rotation_builder.py: add", "ama_xiv_combat_sim/simulator/timeline_builders/damage_builder.py: get_damage_instances", "ama_xiv_combat_sim/simulator/damage_simulator.py: DamageSimulator", "ama_xiv_combat_sim/simulator/trackers/status_effect_tracker.py: add_to_status_effects", "ama_xiv_combat_sim/simulator/trackers/status_effect_tracker.py: compile_debuffs", "ama_xiv_combat_sim/simulator/game_data/create_skill_library.py: create_skill_library"]}
{"id": "C77", "title": "Skills that are not pressed do not matter", "statement": "Two libraries with the same status effect priority, job resources and combo breakers for the player's job, the same skills for the job and name of every add and add_next call and, with auto attacks, the same 'Shot' and 'Auto' of the player's job, give the same timeline, presses and simulator report or the same exception. So adding a skill that is not pressed, or a job none of whose skills are pressed, changes nothing; nor does the library's version or level number, nor for create_skill_library the version beyond its place among the patches.", "quantifier": "all libraries, stats, settings, downtime, sequences of calls, added skills and jobs, and random draws", "why_tests_cant": "Quantifies over every possible content of the rest of a library; tests build one library per case.", "anchors": ["ama_xiv_combat_sim/simulator/timeline_builders/rotation_builder.py: get_skill_timing", "ama_xiv_combat_sim/simulator/timeline_builders/rotation_builder.py: add", "ama_xiv_combat_sim/simulator/timeline_builders/rotation_builder.py: add_next", "ama_xiv_combat_sim/simulator/skills/skill_library.py: SkillLibrary", "ama_xiv_combat_sim/simulator/skills/skill_library.py: add_skill", "ama_xiv_combat_sim/simulator/skills/skill_library.py: add_all_skills_from", "ama_xiv_combat_sim/simulator/timeline_builders/damage_builder.py: DamageBuilder", "ama_xiv_combat_sim/simulator/game_data/create_skill_library.py: create_skill_library"]}
{"id": "C78", "title": "Better gear never hurts a rotation", "statement": "Two sets of Stats arguments with the same weapon delay, speed, job, version and level give the same timeline, presses and damage instances for the same calls. If in addition no number of the second is smaller, every sampled total damage and DPS (same random draws) is at least as large with it, and no sample of estimate_kill_time dies later, nor does one survive that died; with the same crit and direct hit every hit's expected damage is at least as large. This is for libraries none of whose skills has a negative number, like all those of create_skill_library; no hit of a rotation then has one.", "quantifier": "all non-negative Stats arguments, such libraries, settings, downtime, sequences of calls, numbers of samples and random draws", "why_tests_cant": "Relates two runs of unbounded length over all pairs of gear; a rounding, a sign or a threshold that goes the wrong way shows up at particular values.", "anchors": ["ama_xiv_combat_sim/simulator/damage_simulator.py: DamageSimulator", "ama_xiv_combat_sim/simulator/timeline_builders/rotation_builder.py: get_skill_timing", "ama_xiv_combat_sim/simulator/timeline_builders/damage_builder.py: get_damage_instances", "ama_xiv_combat_sim/kill_time_estimator/kill_time_estimator.py: estimate_kill_time", "ama_xiv_combat_sim/simulator/calcs/compute_damage_utils.py", "ama_xiv_combat_sim/simulator/stats.py: Stats", "ama_xiv_combat_sim/simulator/game_data/create_skill_library.py: create_skill_library"]}
{"id": "C79", "title": "A report describes the hits it was given", "statement": "A DamageSimulator has one line per damage instance, in order of time (those at one time in the order given): its time, skill name, conditions, effects, event id and target are the instance's, its potency and damage class those of the damage spec in force, its mean and variance those of the four outcomes of get_damage_ranges (uniform in each range). Totals are sums of the lines. get_raw_damage is the sum of each column of get_damage_matrix, get_dps that divided by the seconds from first to last hit (infinite if these are at one time), and each cell lies in the range reported for the crit and direct hit saved for it. What is saved on request changes nothing else; what was not saved is None or raises AttributeError. With the rotation builder behind the instances, each line also has the snapshot time of the event with its id.", "quantifier": "all stats, lists of instances, numbers of samples, flags and random draws", "why_tests_cant": "Eight parallel arrays indexed by position have to agree for every list, with ties and unsorted input; tests check some columns of short sorted lists.", "anchors": ["ama_xiv_combat_sim/simulator/damage_simulator.py: get_per_skill_damage", "ama_xiv_combat_sim/simulator/damage_simulator.py: get_damage_ranges", "ama_xiv_combat_sim/simulator/damage_simulator.py: get_dps", "ama_xiv_combat_sim/simulator/damage_simulator.py: get_damage_matrix", "ama_xiv_combat_sim/simulator/trackers/damage_tracker.py: add_damage", "ama_xiv_combat_sim/simulator/trackers/damage_tracker.py: compute_damage"]}
{"id": "C80", "title": "Damage adds up over the parts of a fight", "statement": "Handing instances to DamageSimulator in another order gives the same expected damage and variance, and the same everything if no two are at one time. Splitting them into two non-empty parts gives parts that can be simulated, whose expected damage and variance add up to the whole; two parts can be joined if they have at most 5000 instances together. For parts one after the other, the damage of each sample is the sum of theirs with the same draws, and the damage matrix is theirs one below the other.", "quantifier": "all stats, lists of instances, ways to split and reorder them, flags and draws", "why_tests_cant": "Relates runs on infinitely many pairs of lists; sorting, row offsets and the capacity matter only for particular ones.", "anchors": ["ama_xiv_combat_sim/simulator/damage_simulator.py: DamageSimulator", "ama_xiv_combat_sim/simulator/damage_simulator.py: get_expected_damage", "ama_xiv_combat_sim/simulator/damage_simulator.py: get_damage_variance", "ama_xiv_combat_sim/simulator/trackers/damage_tracker.py: compute_damage"]}
{"id": "C81", "title": "The expected best of k runs", "statement": "get_expected_max_in_k_runs(x, k) is the mean over its trials of the best of the k runs drawn in each. It lies between the least and the greatest of x, is not less for more runs per trial or for better runs (with the same draws), and is the greatest of x if every trial draws it. It raises ValueError exactly if x is empty or k is 0.", "quantifier": "all lists of runs, k, numbers of trials and draws", "why_tests_cant": "The function is random; a test can only compare with a tolerance.", "anchors": ["ama_xiv_combat_sim/rotation_analysis/rotation_analysis_utils.py: get_expected_max_in_k_runs"]}
{"id": "C82", "title": "An enemy more does not change the damage to the others", "statement": "If events that already hit two targets or more also hit newcomers, targets that no event named before, get_damage_instances gives the same instances on the other targets, with the same times, conditions, effects and ids.", "quantifier": "all timelines, tracker states, sets of newcomers and events they join", "why_tests_cant": "Relates two runs of unbounded length; the 135 ms between targets make buffs end early or late only when another hit falls into that gap.", "anchors": ["ama_xiv_combat_sim/simulator/timeline_builders/damage_builder.py: get_damage_instances", "ama_xiv_combat_sim/simulator/trackers/status_effect_tracker.py: add_to_status_effects", "ama_xiv_combat_sim/simulator/trackers/status_effect_tracker.py: expire_status_effects"]}
{"id": "C83", "title": "Stats follow the game's tables", "statement": "For versions other than \"test\", Stats accepts exactly the 21 jobs and the levels 90 and 100 (a missing weapon delay is the job's usual one). For whole-number stats up to 20000 its crit rate and bonus, direct hit rate, trait multiplier and haste are the published tables' numbers, computed with whole numbers rounded down and turned into the nearest double at the end. get_time_using_speed_stat gives the published recast or cast time in hundredths of a second, or one millisecond less.", "quantifier": "all jobs, levels, versions and whole-number stats up to 20000 (speed up to 15000), all base times up to 1000 s", "why_tests_cant": "Every step is a floor of a double; a wrong constant or a rounding that falls below a whole number shows only at some of the stat values.", "anchors": ["ama_xiv_combat_sim/simulator/stats.py: Stats", "ama_xiv_combat_sim/simulator/processed_stats.py: ProcessedStats", "ama_xiv_combat_sim/simulator/calcs/stat_fns.py: get_time_using_speed_stat, get_crit_stats, get_dh_rate", "ama_xiv_combat_sim/simulator/game_data/job_class_fns.py: JobClassFns", "ama_xiv_combat_sim/simulator/game_data/game_consts.py: GameConsts"]}
{"id": "C84", "title": "Base damage follows the damage formulas", "statement": "For whole-number stats and potency, get_base_damage of direct hits, damage over time, autos and pets is what the damage formulas give when every step is computed with whole numbers and rounded down.", "quantifier": "all jobs, levels, stats up to 20000 (weapon damage up to 500), potencies up to 3000, and effects that add whole points of main stat and no crit or direct hit rate", "why_tests_cant": "The formulas round down a double up to eight times; a value that should be whole may come out just below it only for particular stats.", "anchors": ["ama_xiv_combat_sim/simulator/calcs/compute_damage_utils.py: get_base_damage", "ama_xiv_combat_sim/simulator/calcs/compute_damage_utils.py: compute_direct_damage, compute_magical_dot_damage, compute_physical_dot_damage, compute_pet_damage, compute_auto_damage", "ama_xiv_combat_sim/simulator/calcs/stat_fns.py: fAP, fDet, fWD, fSpd, fTnc, fAuto"]}
{"id": "C85", "title": "Outcomes and samples of a hit follow the damage formulas", "statement": "The range of each of the four outcomes of a hit runs from its formula at 95 % of the base damage to its formula at 105 % (rounded down): a crit adds the crit bonus, then a direct hit adds a quarter, then the trait's percentage and then the percentages of buffs and debuffs multiply, rounding down after each. A sampled damage is the same formula at a roll which is 95 % plus a tenth of the draw, rounded down (to within a millionth). Adding the crit bonus, multiplying by the effects and multiplying by a trait override other than 100, 120 or 130 % may come out one lower where the result would be whole; the other steps are exact.", "quantifier": "all jobs, levels, stats up to 20000, base damages up to 1000000, trait percentages up to 200 and whole percentages of effects whose product is at most 3000000 (e.g. three effects making a factor 3), all draws", "why_tests_cant": "Swapping two rounding steps changes the damage by one for some numbers only; samples are random, so tests compare means with a tolerance.", "anchors": ["ama_xiv_combat_sim/simulator/trackers/damage_tracker.py: get_damage_ranges", "ama_xiv_combat_sim/simulator/trackers/damage_tracker.py: compute_damage", "ama_xiv_combat_sim/simulator/damage_simulator.py: DamageSimulator"]}
{"id": "C86", "title": "A further buff never lowers the damage", "statement": "Take out of a rotation some timed presses of skills that only help: no damage, follow-ups, combos or resources, and effects that add crit rate, direct hit rate, main stat or damage. The other hits are then the same, at the same times on the same targets, and each of them does at most the damage it does with these presses, for every random draw. This is on a builder without auto attacks that keeps trailing ticks, with no two add calls at the same millisecond, no two things under one name due at the same time, if no effect or resource counts the presses and no priority ranks them. In every supported library Battle Litany, Brotherhood, Arcane Circle, Embolden, Searing Light, Battle Voice, Devilment, Divination, Chain Stratagem, Card and some personal buffs are such skills.", "quantifier": "all libraries without negative numbers, non-negative Stats arguments, settings other than these, sequences of calls, sets of such presses and draws", "why_tests_cant": "Relates two runs of unbounded length; a buff that takes the use of another, hides it, moves a press or changes a roll shows up only in particular rotations.", "anchors": ["ama_xiv_combat_sim/simulator/timeline_builders/rotation_builder.py: get_skill_timing", "ama_xiv_combat_sim/simulator/timeline_builders/damage_builder.py: get_damage_instances", "ama_xiv_combat_sim/simulator/trackers/status_effect_tracker.py: compile_buffs", "ama_xiv_combat_sim/simulator/trackers/status_effect_tracker.py: add_to_status_effects", "ama_xiv_combat_sim/simulator/damage_simulator.py: DamageSimulator", "ama_xiv_combat_sim/simulator/game_data/create_skill_library.py: create_skill_library"]}
{"id": "C87", "title": "A further attack changes no other hit", "statement": "Take an attack that grants nothing: no buff, debuff, follow-up, combo or job resource, with nothing in the rotation counting its uses. Pressing it at one more time, pressing it in sequence between two GCDs where its lock ends before the second, or enabling auto attacks if the job's auto is such an attack, leaves every other hit as it was: the same time, target, conditions and effects, so the same damage. In every supported library the autos of every job are such attacks for weapons of a delay of at least a second.", "quantifier": "all libraries, stats, settings, sequences of calls and such attacks (presses on a builder with a given fight start, no autos and trailing ticks kept; autos for any settings), no two things under one name due at the same time", "why_tests_cant": "Relates two runs of unbounded length; an attack that uses up a buff, ends one early or moves another press shows up only in particular rotations.", "anchors": ["ama_xiv_combat_sim/simulator/timeline_builders/rotation_builder.py: get_skill_timing", "ama_xiv_combat_sim/simulator/timeline_builders/rotation_builder.py: __add_autos", "ama_xiv_combat_sim/simulator/timeline_builders/damage_builder.py: get_damage_instances", "ama_xiv_combat_sim/simulator/trackers/status_effect_tracker.py: expire_status_effects", "ama_xiv_combat_sim/simulator/trackers/status_effect_tracker.py: compile_buffs", "ama_xiv_combat_sim/simulator/game_data/create_skill_library.py: create_skill_library"]}
{"id": "C88", "title": "Kill times count the rotation's damage, and limit breaks as written", "statement": "Of each rotation, estimate_kill_time counts every hit once, at its time: the sampled damage, except that a skill with LB in its name does what its condition says. 'Exact Damage: n' is n in every sample, 'Mean Damage: n' is between 95 and 105 percent of n in each (rounded down); any other condition raises RuntimeError.", "quantifier": "all rotations, draws, numbers of samples, conditions (one per limit break) and n up to 100000000 (exact damage up to 2^53)", "why_tests_cant": "The number is parsed out of a string of any length; rows and conditions are matched up by position.", "anchors": ["ama_xiv_combat_sim/kill_time_estimator/kill_time_estimator.py: get_lb_damage", "ama_xiv_combat_sim/kill_time_estimator/kill_time_estimator.py: process_damage_for_lb_usage", "ama_xiv_combat_sim/kill_time_estimator/kill_time_estimator.py: estimate_kill_time"]}
{"id": "C89", "title": "Further buffs and attacks never delay the kill", "statement": "If every rotation of a kill time estimate is replaced by one with the same hits, each with effects that help at least as much and with the same random draws, and perhaps further hits with any draws, then no sample's kill comes later and no sample that was killed survives. Rotations with the further buffs of C86 and with the further attacks of C87 are such; in every supported library this holds for the party buffs named there and for enabling auto attacks.", "quantifier": "all lists of rotations, HP values, numbers of samples, draws, limit breaks included, and orders that np.argsort may give", "why_tests_cant": "Compares two estimates sample by sample over rotations of any length whose rows are merged and sorted; a random rerun draws differently for each hit.", "anchors": ["ama_xiv_combat_sim/kill_time_estimator/kill_time_estimator.py: estimate_kill_time", "ama_xiv_combat_sim/simulator/timeline_builders/rotation_builder.py: get_skill_timing", "ama_xiv_combat_sim/simulator/timeline_builders/damage_builder.py: get_damage_instances", "ama_xiv_combat_sim/simulator/damage_simulator.py: DamageSimulator", "ama_xiv_combat_sim/simulator/game_data/create_skill_library.py: create_skill_library"]}
{"id": "C90", "title": "A kill time depends on the hits of its rotations only", "statement": "estimate_kill_time gives the same result whatever the order of the rotations and however np.argsort orders hits at the same time; with further rotations no sample is killed later and none that was killed survives; the first n samples of an estimate of more are killed exactly as in one of n with the same draws.", "quantifier": "all lists of rotations without negative numbers (as all shipped libraries give), HP values, numbers of samples and draws", "why_tests_cant": "The rows of all rotations are merged into one matrix and sorted unstably; ties between rotations are common, and a test sees one of the orders.", "anchors": ["ama_xiv_combat_sim/kill_time_estimator/kill_time_estimator.py: estimate_kill_time"]}
{"id": "C91", "title": "Better gear, buffs and attacks never lower the expected damage", "statement": "The expected damage of no hit falls, up to one part in 2^50, when crit, direct hit or any other stat rises at the same speed, weapon delay, job, version and level, or when its effects help more; hence neither does the expected damage of the rotation with better gear or the further buffs of C86. With the further attacks of C87, autos included, it never falls at all. In every supported library this holds for the shipped party buffs and autos.", "quantifier": "all libraries without negative numbers, non-negative Stats arguments, settings and rotations whose crit and direct hit rates stay between 0 and 1", "why_tests_cant": "The four outcomes of a hit are weighted with products of rounded rates; a wrong weight or a crit that does less than a plain hit lowers the mean at some stats only.", "anchors": ["ama_xiv_combat_sim/simulator/damage_simulator.py: get_expected_damage", "ama_xiv_combat_sim/simulator/damage_simulator.py: DamageSimulator", "ama_xiv_combat_sim/simulator/trackers/damage_tracker.py: get_damage_ranges", "ama_xiv_combat_sim/simulator/calcs/compute_damage_utils.py: get_base_damage", "ama_xiv_combat_sim/simulator/timeline_builders/damage_builder.py: get_damage_instances", "ama_xiv_combat_sim/simulator/game_data/create_skill_library.py: create_skill_library"]}
{"id": "C92", "title": "Ignoring trailing ticks changes no other hit", "statement": "With ignore_trailing_dots the timeline loses ticks of damage over time and nothing else, and only ticks later than everything that stays. If ticks grant nothing and no buff with a number of uses or job resource counts them, every other hit keeps its time, target, damage and buffs; the expected damage never rises, and no sample is killed earlier than with the ticks. In every supported library the ticks are like this.", "quantifier": "all libraries (for damage: without negative numbers), stats, targets and rotations with autos off, a given fight start and no downtime, whose damage-over-time effects == tells apart", "why_tests_cant": "Ticks are snapshot when the effect is applied, long before they come; whether dropping one leaves the buffs of earlier hits alone depends on what else uses them up.", "anchors": ["ama_xiv_combat_sim/simulator/timeline_builders/rotation_builder.py: get_skill_timing", "ama_xiv_combat_sim/simulator/timeline_builders/rotation_builder.py: __process_all_dots", "ama_xiv_combat_sim/simulator/timeline_builders/damage_builder.py: get_damage_instances", "ama_xiv_combat_sim/simulator/damage_simulator.py: get_expected_damage", "ama_xiv_combat_sim/kill_time_estimator/kill_time_estimator.py: estimate_kill_time"]}
