import json
RB="ama_xiv_combat_sim/simulator/timeline_builders/rotation_builder.py"
EV="ama_xiv_combat_sim/simulator/timeline_builders/snapshot_and_application_events.py"
DB="ama_xiv_combat_sim/simulator/timeline_builders/damage_builder.py"
SE="ama_xiv_combat_sim/simulator/trackers/status_effect_tracker.py"
JR="ama_xiv_combat_sim/simulator/trackers/job_resource_tracker.py"
CT="ama_xiv_combat_sim/simulator/trackers/combo_tracker.py"
CH="ama_xiv_combat_sim/simulator/trackers/channeling_tracker.py"
DT="ama_xiv_combat_sim/simulator/trackers/damage_tracker.py"
UT="ama_xiv_combat_sim/simulator/utils.py"
SK="ama_xiv_combat_sim/simulator/skills/skill.py"
SL="ama_xiv_combat_sim/simulator/skills/skill_library.py"
SM="ama_xiv_combat_sim/simulator/skills/skill_modifier.py"
SF="ama_xiv_combat_sim/simulator/calcs/stat_fns.py"
CD="ama_xiv_combat_sim/simulator/calcs/compute_damage_utils.py"
DS="ama_xiv_combat_sim/simulator/damage_simulator.py"
KT="ama_xiv_combat_sim/kill_time_estimator/kill_time_estimator.py"
SP="ama_xiv_combat_sim/simulator/game_data/specific_skills.py"
CSV="ama_xiv_combat_sim/simulator/rotation_import_utils/csv_utils.py"
RA="ama_xiv_combat_sim/rotation_analysis/rotation_analysis_utils.py"
EX="ama_xiv_combat_sim/example_rotations/example_rotation_utils.py"
CL="ama_xiv_combat_sim/simulator/game_data/create_skill_library.py"
ER="ama_xiv_combat_sim/example_rotations"
GD="ama_xiv_combat_sim/simulator/game_data/class_skills"
GN="ama_xiv_combat_sim/simulator/game_data/add_generic_skills_to_library.py"
P=[]
def p(title, statement, quantifier, why, anchors):
    P.append(dict(id="C%02d"%(len(P)+1), title=title, statement=statement, quantifier=quantifier, why_tests_cant=why, anchors=anchors))

p("Event queue drains in priority order and conserves events",
  "Whatever sequence of add calls built a SnapshotAndApplicationEvents queue, repeatedly calling get_next until is_empty returns every added event exactly once, in non-decreasing order of (priority, skill name), and never fails before the queue is empty.",
  "every finite sequence of add calls, with any priorities, times, skills, modifiers and targets, and interleavings of add with get_next",
  "The queue is a binary heap; a bug in sift order shows only for particular sizes and priority patterns, so no finite set of test queues settles it.",
  [EV+": SnapshotAndApplicationEvents.add, get_next, is_empty, Event.__lt__"])
p("get_q is a faithful sorted view",
  "get_q returns the same multiset of events as the queue, sorted by (priority, skill name), with events of equal key in the queue's own internal order, and leaves the queue itself unchanged (a later drain gives the same events).",
  "every queue reachable by adds and pops",
  "Sortedness and conservation must hold for every size and every pattern of ties.",
  [EV+": get_q"])
p("Event ids are unique and sequential",
  "Events added without an explicit id receive ids 0,1,2,... in order of addition; no two such events in the timeline returned by RotationBuilder.get_skill_timing share an id.",
  "every sequence of adds; every rotation",
  "Uniqueness over all histories cannot be sampled; DamageSimulator's snapshot lookup relies on it.",
  [EV+": add", RB+": get_skill_timing", DS+": __add_damage_snapshots"])
p("Snapshot/application collapse rule",
  "An event added with equal snapshot and application time is stored with a single time and full buff and debuff snapshotting; an event with different times is stored with both times and its requested snapshot flags unchanged.",
  "every add call",
  "Holds for all pairs of times and all flag combinations.",
  [EV+": add"])
p("First damage time and last event time are exact extrema",
  "get_first_damage_time is the minimum application time over events whose skill deals damage under its modifier (None iff there is none); get_last_event_time is the maximum application time over all events (None iff the queue is empty).",
  "every queue reachable by adds and pops, whatever its internal array order",
  "Independence of the heap's internal order is a statement over all queues.",
  [EV+": get_first_damage_time, get_last_event_time"])
p("Condition strings denote sets",
  "A condition string denotes the set of its comma separated, whitespace-trimmed parts (the empty string denotes the empty set). Adding a condition string to a modifier yields exactly the union; adding twice equals adding once; the order of additions does not matter; joining a set of comma-free, trimmed, non-empty names with ', ' and re-parsing gives the same set back.",
  "all strings and all condition sets",
  "Parsing must be right for every string: arbitrary whitespace, repeated, empty or missing parts.",
  [UT+": canonicalize_condition", SM+": SkillModifier.add_to_condition, remove_from_condition"])
p("The most specific matching condition wins",
  "Given a non-empty collection of distinct condition keys and the active conditions, the selected key is a subset of the active conditions, no matching key is larger, among matching keys of that size the last declared one is taken, and no assertion failure is possible; if no key matches, the lookup raises KeyError unless the table declares a key consisting only of white space and commas.",
  "all finite collections of condition keys in any order and all active condition sets",
  "The selection loop compares with the wrong length (the number of active conditions); that the result is nevertheless a maximal match, and how ties resolve, must be shown for every key order.",
  [UT+": get_best_key", SK+": Skill.get_damage_spec, get_timing_spec, get_buff_spec, get_debuff_spec, get_follow_up_skills, get_combo_spec, get_job_resource_spec"])
p("Conditional specs resolve totally when a default exists",
  "If a skill's conditional table (of damage, timing, buff, debuff, combo, job-resource or follow-up specs) contains the default (empty) condition then every spec lookup succeeds under every modifier and returns a value declared in the table for a condition set contained in the active conditions; a plain (non-table) spec is returned under every modifier.",
  "all skills, tables and modifiers",
  "Ranges over every combination of active conditions.",
  [SK+": Skill.__post_init__, Skill.get_*_spec"])
p("AoE falloff applies to every secondary target",
  "A skill declared with an AoE falloff d deals (1-d) times the primary potency to every target after the first, and full potency to the first.",
  "all skills with a falloff, all target counts, all active conditions",
  "The claim ranges over all target counts and both ways to declare damage.",
  [SK+": Skill.__process_aoe_dropoff", DB+": get_damage_instances"])
p("Patch lookup returns the newest entry not newer than the requested version",
  "Looking a version up in a version-keyed table returns the value of the greatest key that is less than or equal to the query in the key order used, None iff every key is greater, and does not depend on the declaration order of the table.",
  "all tables and queries",
  "Must hold for every table and query; also whether the order used agrees with patch order (\"10.0\" after \"7.0\").",
  [UT+": get_greatest_val_less_than_query, get_greatest_dict_key_val_less_than_query", SP+": get_skill_data"])
p("The skill library is a per-job finite map",
  "After any sequence of job selections and skill additions, get_skill(name, job) returns the skill most recently and only added under that name and job, raises KeyError when none was, adding a duplicate name to a job is rejected and changes nothing, and skills of one job never affect lookups of another; re-selecting a job keeps what was already registered.",
  "all sequences of set_current_job_class / add_skill / add_resource / add_combo_breaker / set_status_effect_priority",
  "Statement over all histories of library construction.",
  [SL+": SkillLibrary"])
p("Sequenced button presses respect the GCD and never go backwards",
  "In a rotation built with add_next, press times are non-decreasing (animation locks being non-negative), and each GCD is pressed no earlier than the previous GCD's press plus that GCD's computed recast time, however many off-GCD actions lie between.",
  "all rotations built with add_next, all stats, all buffs active",
  "Scheduling safety over unbounded action sequences and buff histories.",
  [RB+": __process_q_sequence"])
p("Default-recast GCDs are never closer than the 1.5s floor",
  "Two consecutive GCD presses in a sequence are at least 1500 ms apart whenever the first has the default 2500 ms base recast, under any haste buffs, traits and flat reductions.",
  "all sequences, stats, buffs, debuffs and traits",
  "Haste sources compose multiplicatively without bound; a clamp in the wrong place only shows for some combinations.",
  [RB+": __process_q_sequence lines 613-640"])
p("Press, snapshot and application times are ordered",
  "For every processed skill the snapshot happens at press + max(0, cast - 500), application at press + cast + delay (delay reduced by 500 but not below zero when there is a cast), hence press <= snapshot <= application whenever the declared delay is non-negative; ignoring cast times makes the snapshot immediate; ignoring the delay makes application happen at the end of the cast.",
  "all skills, modifiers, stats and active buffs",
  "Ranges over all cast times, including ones modified by any number of haste effects.",
  [RB+": __process_skill, __get_cast_time"])
p("Timed presses happen when asked",
  "Every add(t, ...) yields exactly one button press at the truncation of 1000*t milliseconds, the pressed skills are processed in non-decreasing time order whatever order they were added in, and get_button_press_timing reports every press exactly once sorted by time.",
  "all sequences of add / add_next calls in any order",
  "Processing order comes from a heap over a list sorted by a coarser key than the heap uses.",
  [RB+": add, __process_q_timed, get_button_press_timing"])
p("DoT ticks of each application",
  "For each target and damage-over-time effect, the ticks caused by an application are exactly the times start, start+3000, ... that are strictly before both the effect's own end and the next application of the same effect to the same target; so ticks of successive applications never interleave and never double up, and every tick snapshots with the application that caused it.",
  "all histories of DoT applications on all targets",
  "Consolidation depends on the whole history of re-applications, in any order of insertion.",
  [RB+": __process_dot_follow_up_skill, __get_base_dot_timings, __get_consolidated_dot_timing, __process_all_dots"])
p("DoT ticks align with the server tick",
  "When a server tick offset is given, every DoT tick time is congruent to the offset modulo 3000 ms, no tick precedes the application of its effect, and the first tick is less than 3000 ms after it; without an offset the first tick coincides with application.",
  "all rotations and all integer-millisecond offsets",
  "Modular alignment for every offset, including negative times.",
  [RB+": __process_all_dots lines 373-389"])
p("Trailing DoT ticks are dropped on request",
  "With ignore_trailing_dots the timeline contains no DoT tick later than the last non-DoT event, and all earlier ticks are kept.",
  "all rotations",
  "Depends on every event of the rotation.",
  [RB+": __process_all_dots line 393, get_skill_timing"])
p("Without a fight start time the first damage lands at zero",
  "With fight_start_time None and at least one damaging event, after get_skill_timing (before downtime removal) the earliest damage application is at time 0, and all pairwise time differences between snapshots, applications, button presses and scaled priorities are those of the unshifted timeline; with no damaging event nothing moves.",
  "all rotations",
  "The shift is the result of a min over the whole timeline and must be applied uniformly.",
  [RB+": shift_timelines_for_first_damage_instance, get_skill_timing"])
p("Downtime removes exactly the damage inside the windows",
  "After get_skill_timing, an event's target remains iff the event deals no damage or neither its application nor its snapshot time lies in a half-open downtime window of that target applying to its damage class; an event disappears iff none of its targets remain; everything else about kept events is unchanged.",
  "all timelines, targets and window sets",
  "Both directions (nothing wrongly kept, nothing wrongly dropped) over all timelines.",
  [RB+": remove_damage_during_downtime, __filter_by_downtime_range_and_damage_class"])
p("get_skill_timing can be called again",
  "Calling get_skill_timing twice on the same builder (with no additions in between and autos disabled) yields the same events: same times, skills, modifiers, targets and ids.",
  "all rotations",
  "The builder keeps internal DoT state between calls; that replaying doubles no tick must hold for all rotations. get_per_skill_damage(rb) depends on it.",
  [RB+": get_skill_timing, _q_dot_skills", DS+": get_per_skill_damage"])
p("Auto attacks fill the fight",
  "With autos enabled and a damaging event, the first auto snapshots at the first damage time, consecutive auto snapshots are at least the truncated hasted weapon delay apart, every auto applies strictly before the last event, and each auto targets the main target of the latest press not after it (the first press's target if none).",
  "all rotations whose weapon delay is at least 10 ms after haste",
  "A loop over a timeline that is itself changing.",
  [RB+": __add_autos, __get_next_auto_time"])
p("Autos are not delivered while casting or channeling",
  "No auto attack snapshot produced after the first falls inside a cast or channel of the player, or inside a downtime window of its target.",
  "all rotations",
  "Depends on all cast windows and their overlaps.",
  [RB+": get_no_auto_periods, __get_next_auto_time, forward_to_next_non_downtime_time"])
p("A status effect counts exactly when it should",
  "After expiry at time t, compiling buffs (or a target's debuffs) for a skill uses exactly the effects that have started, whose end time has not passed, that have uses left, are not on the skill's denylist, allow the skill, and are not suppressed by an active higher-priority effect; the compiled multipliers and additions are the product/sum over exactly these.",
  "all histories of applications, expirations and compilations",
  "Interaction of dozens of effects over time; over all histories.",
  [SE+": StatusEffectTracker"])
p("Re-applying an effect extends it up to its cap",
  "Re-applying an active extendable effect makes it end at now + min(max_duration, remaining + duration), a non-extending one keeps its remaining time, uses add up to the cap max_num_uses, the start time is kept, an extend-only effect never creates itself, and no other effect changes except those the applied effect declares to end or to clear.",
  "all tracker states",
  "All combinations of remaining time, caps and infinities.",
  [SE+": __add_to_status_effects"])
p("An effect with n uses affects n skills",
  "An effect applied with n uses is included in exactly the next n compilations it is valid for and none afterwards, if expiry is performed before each compilation.",
  "all n and all sequences of compilations",
  "Induction over n; off-by-one errors hide from single examples.",
  [SE+": __compile_status_effects, __expire_status_effects"])
p("Debuffs stay on their targets",
  "Applying, compiling or using up debuffs on one target never changes the debuffs of a target that was not hit, and buffs are unaffected by debuff compilation.",
  "all tracker states, skills and target lists",
  "Frame property over all states.",
  [SE+": add_to_status_effects, compile_debuffs, __get_debuffs"])
p("Combos succeed exactly after a fresh predecessor",
  "A combo action succeeds iff it auto-succeeds, is forced, has no predecessor, or the last action recorded for its group is one of its predecessors and was used at most 30 s ago; a failed combo action or a breaker clears the group; actions of other groups do not.",
  "all histories of actions",
  "State machine over unbounded histories.",
  [CT+": ComboTracker"])
p("Job resources stay within bounds and follow their history",
  "The amount reported for a resource is always between 0 and its maximum and equals the clamped running sum over the gains and losses active at the time; a resource whose last refresh (unless that was at time 0) is further back than its expiry is reported as 0.",
  "all resource histories and query times",
  "Running clamped sums over unbounded histories.",
  [JR+": JobResourceTracker"])
p("Channeling windows are disjoint and bounded",
  "For time-ordered skill uses the recorded channel windows are ordered, do not overlap, each starts at a channeling skill's use and lasts at most that skill's channel duration; a window is cut by the first non-allowed skill or when its allowed uses run out.",
  "all time-ordered skill sequences",
  "Unbounded sequences.",
  [CH+": ChannelingTracker"])
p("Every damaging event yields one damage instance per target",
  "get_damage_instances always terminates; when it returns, the event queue is empty, the instances returned are sorted by time, and each event of the timeline contributes exactly one instance per target for which its skill has a damage spec under its final modifier, at its application time plus 135 ms times the target's position (for multi-target events), carrying that event's id.",
  "all timelines",
  "Events are re-inserted into the queue while it is drained; conservation must hold for every timeline.",
  [DB+": get_damage_instances"])
p("Snapshotting decides which effects apply",
  "For an event with distinct snapshot and application times, buffs (debuffs) are those valid at the snapshot when the corresponding flag is set and those valid at application otherwise; effects granted by a skill itself never apply to that same hit.",
  "all timelines and tracker states",
  "Depends on interleavings of snapshots and applications of all other events.",
  [DB+": get_damage_instances"])
p("Follow-ups are processed after their parent and in declared order",
  "Follow-up skills take effect after their parent and in the order in which they are declared.",
  "all skills with follow-ups",
  "Order must hold for all delays and snapshot flags, including equal application times.",
  [RB+": _process_follow_up_skills (comment line 291)", DB+": get_damage_instances lines 138-144", SK+": comment lines 35-38"])
p("Base damage is well defined and at least one",
  "Base damage is None iff the skill has no damage spec under the modifier, 0 iff the potency is 0, and otherwise at least 1, for every damage class.",
  "all stats, skills, modifiers and status effects for which the computation does not raise",
  "Holds for all numeric inputs of long floor/multiply chains.",
  [CD+": get_base_damage"])
p("More is never worse",
  "Base damage is non-decreasing in potency and in every number given to Stats: weapon damage and delay, main stat, determination, direct hit, crit, speed, tenacity, roles in the party and healer strength, for every damage class and including double rounding.",
  "all non-negative numeric inputs",
  "Monotonicity of chains of rounded products and floors over all inputs.",
  [CD+": compute_direct_damage, compute_magical_dot_damage, compute_physical_dot_damage, compute_auto_damage, compute_pet_damage", SF])
p("Forced crit / direct hit override rates",
  "If any source forces a crit (direct hit) the rate is 1, if any source forbids it the rate is 0, if both happen an error is raised, otherwise the rate is the base rate plus the buff and debuff additions; forced hits add a bonus multiplier from rate buffs.",
  "all combinations of sources and rates",
  "All combinations.",
  [CD+": compute_crit_rates_and_bonuses, get_guaranteed_dh_and_crit_bonus_dmg"])
p("Outcome probabilities form a distribution",
  "For each damage instance the four outcome probabilities sum to 1 up to double rounding (within 2^-51 for rates in [0,1]) and, when the crit and direct-hit rates lie in [0,1], each lies in [0,1]; outside that range some probability is negative. Each is, to within 2^-51 of it, the product of the rate of its crit or no crit and the rate of its direct hit or none.",
  "all rates",
  "Over all rationals.",
  [DT+": get_damage_ranges_and_probabilities"])
p("Sampled damage lies in the reported range",
  "For every damage instance and every random draw, as long as no draw behind the reported range is exactly 0, the sampled damage lies between the low and high damage reported by get_damage_ranges for the drawn crit / direct-hit outcome, in double precision.",
  "all base damages, bonuses, multipliers and draws in [0,1)",
  "Random draws cannot be exhausted; rounding could break the bounds.",
  [DT+": __get_damage, get_damage_ranges_and_probabilities"])
p("Expected damage lies in the range and variance is non-negative",
  "Up to the double rounding of the probabilities, the expected damage of an instance lies between the least low and the greatest high of its outcomes and its variance is non-negative (at least -2^-51 times the squared mean), for rates in [0,1]. Both are the moments of drawing an outcome by its probability and then a number of its range uniformly.",
  "all instances",
  "Convexity over all rates.",
  [DS+": __get_expected_damage_and_variance_per_damage_instance"])
p("Kill time is the first moment cumulative damage reaches boss HP",
  "For each sample the reported kill time is the earliest damage time at which the cumulative damage in time order is at least the boss HP; samples that never reach it are reported as None at the end; the number of results equals the number of samples; raising boss HP never makes a kill earlier.",
  "all damage matrices, time vectors and HP values",
  "All orders of merged rotations.",
  [KT+": estimate_kill_time"])
p("Simulation capacity",
  "Simulating any number of damage instances succeeds.",
  "all instance counts",
  "The storage is a fixed-size array.",
  [DT+": add_damage, finalize"])
p("Targets are parsed per press and default correctly",
  "A press's targets are the comma separated, trimmed parts of the target string in order (never empty), the builder's default target when omitted; an unknown skill raises KeyError and leaves the rotation unchanged.",
  "all target strings and builders",
  "All strings.",
  [RB+": __process_and_check_targets, add, add_next"])
p("add_next with num_times is repetition",
  "add_next(s, num_times=n) leaves the builder in the same state as n consecutive add_next(s) calls (for n >= 1).",
  "all n and builders",
  "All n.",
  [RB+": add_next"])
p("Faster stats never make actions slower",
  "Computed cast and recast times are non-increasing in the speed stat, and for speeds up to 15000 non-decreasing in the base time and never negative for non-negative bases; at base speed they equal the base truncated to 10 ms or one millisecond less.",
  "all speed stats and base times at each supported level",
  "Monotonicity through ceil, floor and double rounding over all inputs.",
  [SF+": get_time_using_speed_stat", RB+": __get_cast_time", UT+": truncate_to_digit"])
p("Positional inference only adds conditions",
  "Inferring the positional condition never removes an active condition, returns a condition whose bonus percentage equals the logged one when it returns by search, adds 'No Positional' when the logged bonus is 0, and leaves skills without a 'No Positional' variant untouched.",
  "all skills and modifiers",
  "All tables and bonus values.",
  [UT+": get_positional_condition"])
p("CSV import adds one press per row",
  "Populating a rotation from rows adds exactly one timed press per row in order, with the row's condition, job and targets, omitted fields defaulting.",
  "all row lists",
  "All row lists.",
  [CSV+": populate_rotation_from_csv"])
p("Every damage instance traces back to an event",
  "Every damage instance's event id is the id of an event of the timeline given to the damage builder, with the same skill; so get_per_skill_damage(rb) finds the snapshot time of each instance when the rotation is rebuilt identically.",
  "all rotations",
  "All rotations.",
  [DB+": get_damage_instances", DS+": __add_damage_snapshots"])
p("A damage builder does not leak state between rotations",
  "Calling get_damage_instances on one DamageBuilder for a second rotation gives the same result as a fresh builder.",
  "all pairs of rotations",
  "State carried across calls depends on the whole first rotation.",
  [DB+": DamageBuilder.__init__, get_damage_instances"])
p("Damage by time never decreases and ends at the total",
  "get_all_damage_snapshots_before_timestamp(l, t) is the sum of the expected damage of the instances with snapshot time at most 1000*t and does not decrease in t when damages are not negative; get_dps_at_intervals lists the positive multiples of the interval before the last snapshot in order and then the last snapshot time, and its last entry is the total expected damage.",
  "all lists of instances, times and positive intervals",
  "All lists of instances, and double rounding of every snapshot time.",
  [RA+": get_all_damage_snapshots_before_timestamp, get_dps_at_intervals"])
p("Example rotations press every skill once",
  "get_example_rotation_with_rb adds one timed press per party skill, with its modifier if it has one, and then one sequenced press per skill, in order.",
  "all rotations of the rotation library and all builders",
  "All lists of skills.",
  [EX+": get_example_rotation_with_rb"])
p("Building damage never raises",
  "get_damage_instances returns for every timeline of a rotation builder with a new damage builder.",
  "all rotations",
  "Comparisons happen only when two hits fall on the same millisecond and meet in the heap.",
  [DB+": get_damage_instances"])
p("Which versions and levels load",
  "create_skill_library(version, level) returns exactly for level 90 with version '6.55' or any version string not before '7.0', and for level 100 with any version string not before '7.0'; everything else raises.",
  "all version strings and levels",
  "Infinitely many version strings; each job class has its own checks, data tables and version branches.",
  [CL+": create_skill_library", GD])
p("A loaded library has all jobs with their skills",
  "A loaded library carries the requested version and level, has the 19 jobs of Endwalker and from '7.0' on also PCT and VPR, each with exactly the skills its class declares, the generic skills and its limit breaks, and at least one skill of its own.",
  "all supported versions and levels",
  "Version branches are taken inside hundreds of skill methods; versions without special cases are never tested.",
  [CL+": create_skill_library", SL+": add_all_skills_from"])
p("Looking up a shipped skill never raises",
  "For every skill of every job, and every follow-up of it, and every skill modifier, all get_*_spec lookups return; get_follow_up_skills does too, except that of MCH's Automaton Queen, which raises KeyError without a gauge condition. Every skill a rotation can press has a timing spec.",
  "all supported versions and levels, skills, follow-ups and skill modifiers",
  "Conditions are arbitrary sets of strings, so the modifiers cannot be enumerated.",
  [SK+": Skill.get_damage_spec, get_timing_spec, get_follow_up_skills", GD])
p("Shipped numbers are sane",
  "No shipped skill has a negative potency, damage multiplier, cast time, recast time, animation lock, application delay or follow-up delay; effects have non-negative durations and uses within their maximum, positive damage multipliers and haste below 1; a follow-up has a DoT duration exactly if it deals DoT damage, and it is a positive multiple of 3 s except for MCH's Flamethrower.",
  "all supported versions and levels, skills and follow-ups, under every condition",
  "Over a thousand skills with several versions and conditions each.",
  [GD])
p("Shipped combos can be completed",
  "Every combo action a shipped skill requires is a skill of the same job that sets the same combo group.",
  "all supported versions and levels, skills and combo specs",
  "A misspelt action name only shows as a combo that silently fails.",
  [GD, CT+": compile_and_update_combo"])
p("Shipped resource changes name declared resources",
  "Every job resource a shipped skill changes is one the job declares, unless the change clears all resources.",
  "all supported versions and levels, skills, follow-ups and conditions",
  "A misspelt resource raises only when that skill is used under that condition.",
  [GD, JR+": add_resource"])
p("Restricted shipped effects reach a skill",
  "Every shipped status effect with an allow list names at least one skill of its job.",
  "all supported versions and levels and effects",
  "An allow list that matches nothing does not raise; the effect is just never used.",
  [GD, SE+": compile_buffs"])
p("Shipped effects that only add a condition change some skill",
  "If a shipped status effect does nothing but add its name to the skill condition, some skill it can reach distinguishes that name; and an off-class default condition is one the skill distinguishes.",
  "all supported versions and levels and effects",
  "A misspelt condition does not raise; the effect silently does nothing.",
  [GD, SE+": compile_buffs", SK+": off_class_default_condition"])
p("Missing a shipped combo or positional is never better",
  "Adding 'No Combo' or 'No Positional' to the condition of a use of a shipped skill never raises its potency, that of its follow-up skills counted.",
  "all supported versions and levels, skills and skill modifiers",
  "Depends on which table key wins for every set of conditions.",
  [GD, SK+": get_damage_spec"])
p("Waits and deaths on every job",
  "Every job has a skill 'Wait x.xxs' for each multiple of 10 ms below 10 s that only locks for that long, and Death, Weakness and Brink of Death, which clear status effects, combos and job resources.",
  "all supported versions and levels, jobs and wait lengths",
  "Names are made by float formatting for a thousand lengths on each job.",
  [GN])
p("Versions matter only by their place among the patches",
  "Two supported versions that compare alike with '6.55', '7.0', '7.01', '7.05' and '7.1' give libraries with the same skills, priorities, resources and combo breakers.",
  "all pairs of version strings and all levels",
  "Infinitely many version strings.",
  [CL+": create_skill_library", GD])
p("Building a rotation raises nothing when every press can be made",
  "get_skill_timing returns if each pressed skill and follow-up has a value for every condition and changes only resources the job declares, no two different effects force crits or direct hits for one skill, logged positional bonuses can be matched, and, with auto attacks, some pressed skill hits, the job has an auto attack, downtime ends at whole milliseconds and auto attacks stay at least 10 ms apart.",
  "all rotation builders the API can produce, all skill libraries, conditions and interleavings of effects",
  "Any effect active at any moment can change the condition of any later skill; tests try a handful of rotations.",
  [RB+": get_skill_timing", SK, SE, JR])
p("Any rotation of shipped skills can be built",
  "get_skill_timing returns for every rotation of skills from create_skill_library pressed at any times, in any order, with any conditions.",
  "all supported versions and levels, jobs, gear and rotations",
  "Unboundedly many rotations; whether a rotation raises depends on which conditions meet which skills.",
  [RB+": get_skill_timing", CL+": create_skill_library", GD])
p("Every shipped example rotation runs",
  "For every library of create_skill_library, get_example_rotations returns, and get_skill_timing returns for each of its rotations.",
  "all supported versions and levels and all example rotations",
  "Example rotations name hundreds of skills by string, looked up in a library that depends on version and level; the project has no test of them.",
  [ER+"/get_example_rotations.py: get_example_rotations", EX, RB+": get_skill_timing", CL+": create_skill_library"])
p("Example rotations are of the library's level",
  "The stats of each rotation get_example_rotations returns are of the level of the skill library.",
  "all supported versions and levels and all example rotations",
  "A wrong level raises nothing; damage and cast times are just off.",
  [ER+"/specific_rotations.py: get_stats", "ama_xiv_combat_sim/simulator/stats.py: Stats"])
p("get_example_rotations returns exactly the rotations meant for the library",
  "The result has one rotation for each table entry whose level is the library's and whose version range includes the library's, in the order of the files, with the table's stats, auto attack choice, party skills and skills, on the given library.",
  "all libraries and all tables",
  "A rotation left out or built from another table goes unnoticed.",
  [ER+"/get_example_rotations.py: get_example_rotations", ER+"/specific_rotations.py: rotation_is_valid", EX])
p("Every job has an example rotation",
  "For a library of level 100 and patch 7.05 or later, every job has an example rotation; before 7.05 there is none at level 100.",
  "all supported versions at level 100, all jobs",
  "Infinitely many version strings; coverage of jobs is nowhere asserted.",
  [ER+"/get_example_rotations.py: get_example_rotations", CL+": create_skill_library"])
p("Shipped skills are as strong as their job's data table says",
  "For every number a job's data table gives a skill of a create_skill_library library at its patch and level: pressing the skill (under 'No Combo' and 'No Positional' for those potencies) hits for the potency, its effects last for the duration and multiply damage by damage_mult, its DoT ticks for the duration and potency.",
  "all supported versions and levels, jobs, skills and table entries",
  "Two places state the same number for hundreds of skills at seventeen patch and level combinations; a number left behind in one of them raises nothing.",
  [SP+": get_skill_data", GD, CL+": create_skill_library", SK+": get_damage_spec"])
p("Only differences of times matter",
  "If a rotation's start, timed presses and downtime are all d ms later, get_skill_timing gives the same presses and events d ms later or raises the same exception, get_damage_instances the same instances d ms later, and the simulator the same expected damage, variance, sampled damage and DPS. Without a start and with timed presses only, not with both auto attacks and downtime, presses that do damage give the same result wherever they are. This is for jobs whose resources have no expiry (all shipped ones but BLM), without dropping trailing ticks and without server ticks.",
  "all libraries, stats, rotations with auto attacks and downtime, shifts d and random draws",
  "Relates two runs with infinitely many pairs of times; an absolute time hidden in a tracker shows up only at particular moments (such as 0).",
  [RB+": get_skill_timing", DB+": get_damage_instances", DS+": DamageSimulator", JR+": compile_job_resources"])
p("The past of a rotation does not depend on its future",
  "If more add_next calls, or add calls later than all earlier add calls, are made on a builder with a start time and get_skill_timing runs again from scratch, the presses reported before are all reported again with the same times, and with add_next alone they come first. Every event of the earlier presses except ticks and auto attacks is on the timeline again, unchanged. Without auto attacks and without dropping trailing ticks, the timeline before the first new press is the same, ticks included.",
  "all libraries, stats, rotations (no two add calls at one time), downtime and further calls",
  "Relates two runs of unbounded length; a tracker that is not reset, a heap comparison or a look-ahead shows up only with particular pairs.",
  [RB+": get_skill_timing", RB+": add", RB+": add_next"])
p("Damage depends on the past only",
  "If two rotations' timelines have the same events beginning before T, get_damage_instances with trackers in the same state gives the same instances before T, with the same conditions, effects and ids. In particular it does for a rotation with a start time and the same rotation with more presses from T on, if there are no auto attacks and no skill has a damage-over-time effect. This is for timelines on which no two things under one name are due at the same time and priority, and on which whatever applies later than its snapshot has one target.",
  "all libraries, stats, timelines, tracker states and times T",
  "Relates two runs of unbounded length; an effect that leaks backwards shows up only with particular pairs, as it does with ticks of a DoT that is applied again.",
  [DB+": get_damage_instances", RB+": get_skill_timing"])
p("A sequence and its reported times say the same",
  "If add_next calls are made on a new builder without auto attacks and get_skill_timing reports their press times, all different, then add calls for the same presses at those times give the same timeline (events, ids) and the same presses; without a start time, at those times moved by one number. The rows print_button_press_timings_as_csv prints for presses on the default target, with default modifiers or conditions only, give the same when read by the CSV import, if every time survives the conversion to seconds and back.",
  "all libraries, stats, settings other than auto attacks, sequences of calls with non-negative animation locks",
  "Two separate code paths (sequenced and timed) have to agree on trackers, snapshots, DoTs and targets for every rotation; no test compares them.",
  [RB+": add_next", RB+": add", RB+": get_skill_timing", RB+": print_button_press_timings_as_csv", CSV+": populate_rotation"])
p("The order of add calls does not matter",
  "On a builder without auto attacks, if no two add calls are at the same millisecond, then making the add calls in another order, before, between or after the add_next calls (these in their order), succeeds if it did before, and get_skill_timing gives the same timeline (events, ids) and the same presses.",
  "all libraries, stats, settings other than auto attacks, sequences of add and add_next calls and their reorderings",
  "Relates factorially many orders of unboundedly many calls; the timed presses are kept in the order of the calls and popped as a heap, which is right only once they are sorted.",
  [RB+": add", RB+": add_next", RB+": get_skill_timing", RB+": __process_q_timed"])
p("A press that does nothing changes nothing else",
  "On a builder without auto attacks that keeps trailing ticks, take out one press of a skill without damage, effects, follow-ups, combos or resources, such as a Wait: get_skill_timing then gives the same events and presses, at the same times, less that press's own. This is for an add call when no two are at the same millisecond, and for a sequenced press of a skill off the GCD when the next press is a GCD later than the end of its lock. No effect with limited uses may count the press; in every supported library, none counts a Wait.",
  "all libraries, stats, settings other than these, rotations of add and add_next calls, and positions of the press",
  "Relates two runs of unbounded length; what an idle press can touch (uses of effects, expiry, combos, queue ids) shows up only many presses later.",
  [RB+": get_skill_timing", SE+": compile_buffs", CT+": compile_and_update_combo", JR+": compile_job_resources", CL+": create_skill_library"])
p("The names of the targets do not matter",
  "Rename the targets, different ones differently, in every call that builds a rotation (default target, downtime windows, add, add_next): get_skill_timing gives the same timeline and presses, and get_damage_instances and DamageSimulator the same instances, effects, draws and report, with the targets renamed. This is for rotations in which presses of one skill at the same time name the same targets, and in which \"Default Target\" keeps its name or debuffs change no time, condition or forced outcome and no buff ends them. In every supported library debuffs are like this.",
  "all injective renamings, libraries, stats, settings, downtime, sequences of calls, and random draws",
  "Relates two runs of unbounded length for infinitely many names; a hard-coded name or a comparison of names shows up only with particular targets and debuffs.",
  [RB+": get_skill_timing", RB+": add", DB+": get_damage_instances", DS+": DamageSimulator", SE+": add_to_status_effects", SE+": compile_debuffs", CL+": create_skill_library"])
p("Skills that are not pressed do not matter",
  "Two libraries with the same status effect priority, job resources and combo breakers for the player's job, the same skills for the job and name of every add and add_next call and, with auto attacks, the same 'Shot' and 'Auto' of the player's job, give the same timeline, presses and simulator report or the same exception. So adding a skill that is not pressed, or a job none of whose skills are pressed, changes nothing; nor does the library's version or level number, nor for create_skill_library the version beyond its place among the patches.",
  "all libraries, stats, settings, downtime, sequences of calls, added skills and jobs, and random draws",
  "Quantifies over every possible content of the rest of a library; tests build one library per case.",
  [RB+": get_skill_timing", RB+": add", RB+": add_next", SL+": SkillLibrary", SL+": add_skill", SL+": add_all_skills_from", DB+": DamageBuilder", CL+": create_skill_library"])
p("Better gear never hurts a rotation",
  "Two sets of Stats arguments with the same weapon delay, speed, job, version and level give the same timeline, presses and damage instances for the same calls. If in addition no number of the second is smaller, every sampled total damage and DPS (same random draws) is at least as large with it, and no sample of estimate_kill_time dies later, nor does one survive that died; with the same crit and direct hit every hit's expected damage is at least as large. This is for libraries none of whose skills has a negative number, like all those of create_skill_library; no hit of a rotation then has one.",
  "all non-negative Stats arguments, such libraries, settings, downtime, sequences of calls, numbers of samples and random draws",
  "Relates two runs of unbounded length over all pairs of gear; a rounding, a sign or a threshold that goes the wrong way shows up at particular values.",
  [DS+": DamageSimulator", RB+": get_skill_timing", DB+": get_damage_instances", KT+": estimate_kill_time", CD, "ama_xiv_combat_sim/simulator/stats.py: Stats", CL+": create_skill_library"])
p("A report describes the hits it was given",
  "A DamageSimulator has one line per damage instance, in order of time (those at one time in the order given): its time, skill name, conditions, effects, event id and target are the instance's, its potency and damage class those of the damage spec in force, its mean and variance those of the four outcomes of get_damage_ranges (uniform in each range). Totals are sums of the lines. get_raw_damage is the sum of each column of get_damage_matrix, get_dps that divided by the seconds from first to last hit (infinite if these are at one time), and each cell lies in the range reported for the crit and direct hit saved for it. What is saved on request changes nothing else; what was not saved is None or raises AttributeError. With the rotation builder behind the instances, each line also has the snapshot time of the event with its id.",
  "all stats, lists of instances, numbers of samples, flags and random draws",
  "Eight parallel arrays indexed by position have to agree for every list, with ties and unsorted input; tests check some columns of short sorted lists.",
  [DS+": get_per_skill_damage", DS+": get_damage_ranges", DS+": get_dps", DS+": get_damage_matrix", DT+": add_damage", DT+": compute_damage"])
p("Damage adds up over the parts of a fight",
  "Handing instances to DamageSimulator in another order gives the same expected damage and variance, and the same everything if no two are at one time. Splitting them into two non-empty parts gives parts that can be simulated, whose expected damage and variance add up to the whole; two parts can be joined if they have at most 5000 instances together. For parts one after the other, the damage of each sample is the sum of theirs with the same draws, and the damage matrix is theirs one below the other.",
  "all stats, lists of instances, ways to split and reorder them, flags and draws",
  "Relates runs on infinitely many pairs of lists; sorting, row offsets and the capacity matter only for particular ones.",
  [DS+": DamageSimulator", DS+": get_expected_damage", DS+": get_damage_variance", DT+": compute_damage"])
p("The expected best of k runs",
  "get_expected_max_in_k_runs(x, k) is the mean over its trials of the best of the k runs drawn in each. It lies between the least and the greatest of x, is not less for more runs per trial or for better runs (with the same draws), and is the greatest of x if every trial draws it. It raises ValueError exactly if x is empty or k is 0.",
  "all lists of runs, k, numbers of trials and draws",
  "The function is random; a test can only compare with a tolerance.",
  [RA+": get_expected_max_in_k_runs"])
p("An enemy more does not change the damage to the others",
  "If events that already hit two targets or more also hit newcomers, targets that no event named before, get_damage_instances gives the same instances on the other targets, with the same times, conditions, effects and ids.",
  "all timelines, tracker states, sets of newcomers and events they join",
  "Relates two runs of unbounded length; the 135 ms between targets make buffs end early or late only when another hit falls into that gap.",
  [DB+": get_damage_instances", SE+": add_to_status_effects", SE+": expire_status_effects"])
p("Stats follow the game's tables",
  "For versions other than \"test\", Stats accepts exactly the 21 jobs and the levels 90 and 100 (a missing weapon delay is the job's usual one). For whole-number stats up to 20000 its crit rate and bonus, direct hit rate, trait multiplier and haste are the published tables' numbers, computed with whole numbers rounded down and turned into the nearest double at the end. get_time_using_speed_stat gives the published recast or cast time in hundredths of a second, or one millisecond less.",
  "all jobs, levels, versions and whole-number stats up to 20000 (speed up to 15000), all base times up to 1000 s",
  "Every step is a floor of a double; a wrong constant or a rounding that falls below a whole number shows only at some of the stat values.",
  ["ama_xiv_combat_sim/simulator/stats.py: Stats", "ama_xiv_combat_sim/simulator/processed_stats.py: ProcessedStats", SF+": get_time_using_speed_stat, get_crit_stats, get_dh_rate", "ama_xiv_combat_sim/simulator/game_data/job_class_fns.py: JobClassFns", "ama_xiv_combat_sim/simulator/game_data/game_consts.py: GameConsts"])
p("Base damage follows the damage formulas",
  "For whole-number stats and potency, get_base_damage of direct hits, damage over time, autos and pets is what the damage formulas give when every step is computed with whole numbers and rounded down.",
  "all jobs, levels, stats up to 20000 (weapon damage up to 500), potencies up to 3000, and effects that add whole points of main stat and no crit or direct hit rate",
  "The formulas round down a double up to eight times; a value that should be whole may come out just below it only for particular stats.",
  [CD+": get_base_damage", CD+": compute_direct_damage, compute_magical_dot_damage, compute_physical_dot_damage, compute_pet_damage, compute_auto_damage", SF+": fAP, fDet, fWD, fSpd, fTnc, fAuto"])
p("Outcomes and samples of a hit follow the damage formulas",
  "The range of each of the four outcomes of a hit runs from its formula at 95 % of the base damage to its formula at 105 % (rounded down): a crit adds the crit bonus, then a direct hit adds a quarter, then the trait's percentage and then the percentages of buffs and debuffs multiply, rounding down after each. A sampled damage is the same formula at a roll which is 95 % plus a tenth of the draw, rounded down (to within a millionth). Adding the crit bonus, multiplying by the effects and multiplying by a trait override other than 100, 120 or 130 % may come out one lower where the result would be whole; the other steps are exact.",
  "all jobs, levels, stats up to 20000, base damages up to 1000000, trait percentages up to 200 and whole percentages of effects whose product is at most 3000000 (e.g. three effects making a factor 3), all draws",
  "Swapping two rounding steps changes the damage by one for some numbers only; samples are random, so tests compare means with a tolerance.",
  [DT+": get_damage_ranges", DT+": compute_damage", DS+": DamageSimulator"])
p("A further buff never lowers the damage",
  "Take out of a rotation some timed presses of skills that only help: no damage, follow-ups, combos or resources, and effects that add crit rate, direct hit rate, main stat or damage. The other hits are then the same, at the same times on the same targets, and each of them does at most the damage it does with these presses, for every random draw. This is on a builder without auto attacks that keeps trailing ticks, with no two add calls at the same millisecond, no two things under one name due at the same time, if no effect or resource counts the presses and no priority ranks them. In every supported library Battle Litany, Brotherhood, Arcane Circle, Embolden, Searing Light, Battle Voice, Devilment, Divination, Chain Stratagem, Card and some personal buffs are such skills.",
  "all libraries without negative numbers, non-negative Stats arguments, settings other than these, sequences of calls, sets of such presses and draws",
  "Relates two runs of unbounded length; a buff that takes the use of another, hides it, moves a press or changes a roll shows up only in particular rotations.",
  [RB+": get_skill_timing", DB+": get_damage_instances", SE+": compile_buffs", SE+": add_to_status_effects", DS+": DamageSimulator", CL+": create_skill_library"])
p("A further attack changes no other hit",
  "Take an attack that grants nothing: no buff, debuff, follow-up, combo or job resource, with nothing in the rotation counting its uses. Pressing it at one more time, pressing it in sequence between two GCDs where its lock ends before the second, or enabling auto attacks if the job's auto is such an attack, leaves every other hit as it was: the same time, target, conditions and effects, so the same damage. In every supported library the autos of every job are such attacks for weapons of a delay of at least a second.",
  "all libraries, stats, settings, sequences of calls and such attacks (presses on a builder with a given fight start, no autos and trailing ticks kept; autos for any settings), no two things under one name due at the same time",
  "Relates two runs of unbounded length; an attack that uses up a buff, ends one early or moves another press shows up only in particular rotations.",
  [RB+": get_skill_timing", RB+": __add_autos", DB+": get_damage_instances", SE+": expire_status_effects", SE+": compile_buffs", CL+": create_skill_library"])
p("Kill times count the rotation's damage, and limit breaks as written",
  "Of each rotation, estimate_kill_time counts every hit once, at its time: the sampled damage, except that a skill with LB in its name does what its condition says. 'Exact Damage: n' is n in every sample, 'Mean Damage: n' is between 95 and 105 percent of n in each (rounded down); any other condition raises RuntimeError.",
  "all rotations, draws, numbers of samples, conditions (one per limit break) and n up to 100000000 (exact damage up to 2^53)",
  "The number is parsed out of a string of any length; rows and conditions are matched up by position.",
  [KT+": get_lb_damage", KT+": process_damage_for_lb_usage", KT+": estimate_kill_time"])
p("Further buffs and attacks never delay the kill",
  "If every rotation of a kill time estimate is replaced by one with the same hits, each with effects that help at least as much and with the same random draws, and perhaps further hits with any draws, then no sample's kill comes later and no sample that was killed survives. Rotations with the further buffs of C86 and with the further attacks of C87 are such; in every supported library this holds for the party buffs named there and for enabling auto attacks.",
  "all lists of rotations, HP values, numbers of samples, draws, limit breaks included, and orders that np.argsort may give",
  "Compares two estimates sample by sample over rotations of any length whose rows are merged and sorted; a random rerun draws differently for each hit.",
  [KT+": estimate_kill_time", RB+": get_skill_timing", DB+": get_damage_instances", DS+": DamageSimulator", CL+": create_skill_library"])
p("A kill time depends on the hits of its rotations only",
  "estimate_kill_time gives the same result whatever the order of the rotations and however np.argsort orders hits at the same time; with further rotations no sample is killed later and none that was killed survives; the first n samples of an estimate of more are killed exactly as in one of n with the same draws.",
  "all lists of rotations without negative numbers (as all shipped libraries give), HP values, numbers of samples and draws",
  "The rows of all rotations are merged into one matrix and sorted unstably; ties between rotations are common, and a test sees one of the orders.",
  [KT+": estimate_kill_time"])
p("Better gear, buffs and attacks never lower the expected damage",
  "The expected damage of no hit falls, up to one part in 2^50, when crit, direct hit or any other stat rises at the same speed, weapon delay, job, version and level, or when its effects help more; hence neither does the expected damage of the rotation with better gear or the further buffs of C86. With the further attacks of C87, autos included, it never falls at all. In every supported library this holds for the shipped party buffs and autos.",
  "all libraries without negative numbers, non-negative Stats arguments, settings and rotations whose crit and direct hit rates stay between 0 and 1",
  "The four outcomes of a hit are weighted with products of rounded rates; a wrong weight or a crit that does less than a plain hit lowers the mean at some stats only.",
  [DS+": get_expected_damage", DS+": DamageSimulator", DT+": get_damage_ranges", CD+": get_base_damage", DB+": get_damage_instances", CL+": create_skill_library"])
p("Ignoring trailing ticks changes no other hit",
  "With ignore_trailing_dots the timeline loses ticks of damage over time and nothing else, and only ticks later than everything that stays. If ticks grant nothing and no buff with a number of uses or job resource counts them, every other hit keeps its time, target, damage and buffs; the expected damage never rises, and no sample is killed earlier than with the ticks. In every supported library the ticks are like this.",
  "all libraries (for damage: without negative numbers), stats, targets and rotations with autos off, a given fight start and no downtime, whose damage-over-time effects == tells apart",
  "Ticks are snapshot when the effect is applied, long before they come; whether dropping one leaves the buffs of earlier hits alone depends on what else uses them up.",
  [RB+": get_skill_timing", RB+": __process_all_dots", DB+": get_damage_instances", DS+": get_expected_damage", KT+": estimate_kill_time"])
with open("/verif/properties.jsonl","w") as f:
    for x in P: f.write(json.dumps(x)+"\n")
print(len(P))
