{
 "claims": [
  {
   "property": "C01",
   "status": "proved",
   "theorems": [
    "C01_queue_drains_in_order",
    "C01_queue_refines_bag",
    "C01_queue_ok_iff_guarded"
   ],
   "note": "heapq modelled exactly as CPython's algorithm"
  },
  {
   "property": "C02",
   "status": "proved",
   "theorems": [
    "C02_get_q_faithful"
   ],
   "note": "get_q is a pure function of the queue in the model, so the queue is unchanged by construction"
  },
  {
   "property": "C03",
   "status": "proved",
   "theorems": [
    "C03_ids_sequential",
    "C03_timeline_ids"
   ],
   "note": "C03_timeline_ids: ids of the returned timeline are distinct and follow queue order"
  },
  {
   "property": "C04",
   "status": "proved",
   "theorems": [
    "C04_add_stores",
    "C04_add_total"
   ],
   "note": ""
  },
  {
   "property": "C05",
   "status": "proved",
   "theorems": [
    "C05_last_event_time",
    "C05_first_damage_time",
    "C05_first_damage_total"
   ],
   "note": "get_first_damage_time raises exactly when some event's damage spec lookup raises"
  },
  {
   "property": "C06",
   "status": "proved",
   "theorems": [
    "C06_condition_denotes",
    "C06_every_string_decomposes",
    "C06_trim_unique",
    "C06_add_is_union",
    "C06_add_idempotent",
    "C06_add_commutes",
    "C06_join_round_trip"
   ],
   "note": "strings are byte strings; white space is the ASCII white space of Python"
  },
  {
   "property": "C07",
   "status": "proved",
   "theorems": [
    "C07_best_key",
    "C07_best_key_unique",
    "C07_tables_have_distinct_keys",
    "C07_table_lookup",
    "C07_no_match_key_error"
   ],
   "note": ""
  },
  {
   "property": "C08",
   "status": "proved",
   "theorems": [
    "C08_default_makes_total",
    "C08_most_specific",
    "C08_tuple_tables",
    "C08_plain_spec",
    "C08_modifiers_are_sets",
    "C08_channeling_table_refuted"
   ],
   "note": "tables of channeling specs are outside the claim: C08_channeling_table_refuted shows they always raise"
  },
  {
   "property": "C09",
   "status": "partial",
   "theorems": [
    "C09_table_partial",
    "C09_single_spec_refuted",
    "C09_foul_refuted"
   ],
   "note": "false as stated: proved for targets 2..9 of tabulated skills; refuted for every skill with a single damage spec, and targets from 10 on get full potency; C09_foul_refuted is a shipped skill that declares a falloff and has none"
  },
  {
   "property": "C10",
   "status": "proved",
   "theorems": [
    "C10_version_lookup",
    "C10_order_independent",
    "C10_numeric_order_refuted"
   ],
   "note": "the order is lexicographic; C10_numeric_order_refuted shows it is not the numeric patch order"
  },
  {
   "property": "C11",
   "status": "proved",
   "theorems": [
    "C11_library_refines_maps",
    "C11_refusals",
    "C11_duplicate_rejected",
    "C11_load_is_calls"
   ],
   "note": ""
  },
  {
   "property": "C24",
   "status": "proved",
   "theorems": [
    "C24_buffs",
    "C24_debuffs",
    "C24_when_it_raises"
   ],
   "note": "an effect still counts at its exact end time"
  },
  {
   "property": "C25",
   "status": "proved",
   "theorems": [
    "C25_apply",
    "C25_reapply",
    "C25_extend_only_never_creates"
   ],
   "note": ""
  },
  {
   "property": "C26",
   "status": "proved",
   "theorems": [
    "C26_n_uses"
   ],
   "note": ""
  },
  {
   "property": "C27",
   "status": "proved",
   "theorems": [
    "C27_debuffs_stay_on_their_targets",
    "C27_compile_isolation",
    "C27_buff_touches_default_target_refuted"
   ],
   "note": "the refuted theorem shows the analogous claim for buffs with an expiry list is false on the target named Default Target"
  },
  {
   "property": "C28",
   "status": "proved",
   "theorems": [
    "C28_combo",
    "C28_initial",
    "C28_run"
   ],
   "note": ""
  },
  {
   "property": "C29",
   "status": "proved",
   "theorems": [
    "C29_report",
    "C29_amount",
    "C29_refresh_at_zero_refuted",
    "C29_future_gain_refuted"
   ],
   "note": "the two refuted theorems show why time 0 and later-dated entries are excluded"
  },
  {
   "property": "C30",
   "status": "proved",
   "theorems": [
    "C30_windows_exact",
    "C30_windows_disjoint_bounded",
    "C30_protocol"
   ],
   "note": "channel durations are assumed non-negative"
  },
  {
   "property": "C12",
   "status": "proved",
   "theorems": [
    "C12_sequence_presses",
    "C12_gcd_gap",
    "C12_determined"
   ],
   "note": "for every run that returns; the recast time is spelled out by is_recast_time, the effects in force by tracked"
  },
  {
   "property": "C13",
   "status": "proved",
   "theorems": [
    "C13_run"
   ],
   "note": ""
  },
  {
   "property": "C14",
   "status": "proved",
   "theorems": [
    "C14_times"
   ],
   "note": ""
  },
  {
   "property": "C15",
   "status": "proved",
   "theorems": [
    "C15_add_asks",
    "C15_presses_reported",
    "C15_whole_milliseconds_refuted"
   ],
   "note": "1000*t is the double-precision product; the refuted theorem shows that 2.01 s is pressed at 2009 ms"
  },
  {
   "property": "C16",
   "status": "proved",
   "theorems": [
    "C16_timeline_ticks",
    "C16_ticks",
    "C16_shipped"
   ],
   "note": "for a builder's first run; effects that Python's == confuses are excluded (distinguishable), which in the shipped libraries are none"
  },
  {
   "property": "C17",
   "status": "partial",
   "theorems": [
    "C16_timeline_ticks",
    "C16_ticks",
    "C17_aligned_partial",
    "C17_offset_refuted"
   ],
   "note": "proved when 1000*offset is exactly a whole number in double precision; C17_offset_refuted shows the claim fails for an offset of 2.01 s"
  },
  {
   "property": "C18",
   "status": "partial",
   "theorems": [
    "C16_timeline_ticks",
    "C18_trailing_dropped_partial",
    "C22_set",
    "C22_set_any_time",
    "C18_last_event_at_zero_refuted"
   ],
   "note": "a last event at exactly time 0 counts as none, which C18_last_event_at_zero_refuted exhibits; the comparison of both settings is proved without autos, windows and time shift, the general run by C16_timeline_ticks"
  },
  {
   "property": "C19",
   "status": "proved",
   "theorems": [
    "C19_shifted",
    "C19_first_damage_at_zero",
    "C19_no_damage_no_move",
    "C19_general"
   ],
   "note": ""
  },
  {
   "property": "C20",
   "status": "partial",
   "theorems": [
    "C20_downtime",
    "C20_all_spared",
    "C20_asked",
    "C20_seconds",
    "C20_kept",
    "C20_later_targets_refuted"
   ],
   "note": "comparison with the run without windows proved with autos off (autos themselves depend on the windows); C20_later_targets_refuted: windows for all targets are bound to the targets known at the first run"
  },
  {
   "property": "C21",
   "status": "proved",
   "theorems": [
    "C21_run_again"
   ],
   "note": "second run after a first run on a new builder; effects that Python's == confuses are excluded"
  },
  {
   "property": "C42",
   "status": "proved",
   "theorems": [
    "C42_add",
    "C42_add_next",
    "C42_targets",
    "C42_unknown_skill",
    "C42_targets_known"
   ],
   "note": ""
  },
  {
   "property": "C43",
   "status": "proved",
   "theorems": [
    "C43_repetition"
   ],
   "note": ""
  },
  {
   "property": "C44",
   "status": "proved",
   "theorems": [
    "C44_faster_not_slower",
    "C44_longer_base",
    "C44_never_negative",
    "C44_negative_refuted",
    "C44_at_base_speed",
    "C44_cast_not_slower",
    "C44_cast_never_negative",
    "C44_recast_not_slower"
   ],
   "note": "C44_negative_refuted shows the bound on the speed is needed for non-negative times"
  },
  {
   "property": "C22",
   "status": "proved",
   "theorems": [
    "C22_timeline_autos",
    "C22_schedule",
    "C22_ends",
    "C22_init",
    "C22_set",
    "C22_set_any_time"
   ],
   "note": "for a builder's first run; targets for runs whose delays are not negative"
  },
  {
   "property": "C23",
   "status": "partial",
   "theorems": [
    "C23_periods_partial",
    "C23_kept_out_partial",
    "C23_not_in_downtime",
    "C23_queued_casts_refuted",
    "C23_overlapping_casts_refuted"
   ],
   "note": "downtime proved; casts and channels only for presses added with a time and when none ends inside another; the refuted theorems show both limits are real"
  },
  {
   "property": "C45",
   "status": "proved",
   "theorems": [
    "C45_inferred",
    "C45_keeps",
    "C45_total"
   ],
   "note": "condition names without commas, outer blanks and not empty"
  },
  {
   "property": "C46",
   "status": "proved",
   "theorems": [
    "C46_one_press_per_row",
    "C46_known_rows_succeed",
    "C46_unknown_row_raises"
   ],
   "note": "rows as pandas delivers them; parsing the file is not modelled"
  },
  {
   "property": "C49",
   "status": "partial",
   "theorems": [
    "C49_dealt_before",
    "C49_never_decreases",
    "C49_interval_times",
    "C49_succeeds",
    "C49_last_entry_partial",
    "C49_last_entry_is_total_refuted"
   ],
   "note": "false as stated: 1000*(t/1000) can round below t, so the last entry may lack the instances of the last snapshot time; sums are exact, without the rounding to two decimals"
  },
  {
   "property": "C50",
   "status": "partial",
   "theorems": [
    "C50_presses_partial",
    "C50_one_press_refuted"
   ],
   "note": "false as stated: a party skill with a modifier is pressed twice, with and without the modifier; all other presses as stated"
  },
  {
   "property": "C31",
   "status": "proved",
   "theorems": [
    "C31_terminates",
    "C31_one_hit_per_target"
   ],
   "note": "for runs that return; see C51"
  },
  {
   "property": "C32",
   "status": "partial",
   "theorems": [
    "C32_hits_described",
    "C32_in_force_refuted",
    "C32_other_target_refuted"
   ],
   "note": "each effect is what the tracker (C24-C29) answers at the moment the flags say, before the hit's own grants; the refuted theorems show that trackers are not always asked in time order, so a buff in force can be missing, and that a multi-target skill's own buff reaches its later targets"
  },
  {
   "property": "C33",
   "status": "partial",
   "theorems": [
    "C33_first_times_in_order_partial",
    "C33_applications_refuted"
   ],
   "note": "proved for the first handling (snapshot); false for simultaneous applications, whose order is reversed"
  },
  {
   "property": "C47",
   "status": "proved",
   "theorems": [
    "C47_source",
    "C47_traced",
    "C47_traced_same_builder"
   ],
   "note": ""
  },
  {
   "property": "C48",
   "status": "partial",
   "theorems": [
    "C48_as_new_partial",
    "C48_no_leak_refuted"
   ],
   "note": "false as stated: effects of the first rotation reach the second; proved when the first rotation's skills grant nothing"
  },
  {
   "property": "C51",
   "status": "partial",
   "theorems": [
    "C51_clash_partial",
    "C51_never_raises_refuted"
   ],
   "note": "false as stated: simultaneous hits of a skill on targets with different debuffs raise TypeError; C51_clash_partial says which hits clash"
  },
  {
   "property": "C34",
   "status": "proved",
   "theorems": [
    "C34_none",
    "C34_value",
    "C34_defined"
   ],
   "note": ""
  },
  {
   "property": "C35",
   "status": "proved",
   "theorems": [
    "C35_more_is_never_worse"
   ],
   "note": "all improvements at once; no bound on the main stat is needed"
  },
  {
   "property": "C36",
   "status": "proved",
   "theorems": [
    "C36_rates",
    "C36_contradiction",
    "C36_bonus"
   ],
   "note": ""
  },
  {
   "property": "C37",
   "status": "proved",
   "theorems": [
    "C37_distribution",
    "C37_each",
    "C37_exactly_one_refuted"
   ],
   "note": "the refuted theorem shows that the sum is not exactly 1 in doubles"
  },
  {
   "property": "C38",
   "status": "proved",
   "theorems": [
    "C38_sample_in_range",
    "C38_outcome_drawn",
    "C38_zero_draw_refuted"
   ],
   "note": "crit stat and multipliers not negative; the refuted theorem shows that a draw of exactly 0 must be excluded"
  },
  {
   "property": "C39",
   "status": "proved",
   "theorems": [
    "C39_expected_in_range",
    "C39_moments"
   ],
   "note": "sums over the four outcomes are exact, probabilities and ranges are doubles"
  },
  {
   "property": "C40",
   "status": "proved",
   "theorems": [
    "C40_kill_time",
    "C40_damage_not_negative",
    "C40_one_per_sample",
    "C40_more_hp",
    "C40_fates_unique"
   ],
   "note": "for any argsort that sorts; sums of whole damage are exact"
  },
  {
   "property": "C41",
   "status": "partial",
   "theorems": [
    "C41_fits_partial",
    "C41_overflow",
    "C41_any_number_refuted",
    "C41_empty_refuted"
   ],
   "note": "false as stated: more than 5000 instances raise IndexError, none raises ValueError; proved from 1 to 5000"
  },
  {
   "property": "C52",
   "status": "proved",
   "theorems": [
    "C52_loads_exactly",
    "C52_otherwise_raises",
    "C52_default_arguments_refuted",
    "C52_patch_10_refuted"
   ],
   "note": "the default arguments of create_skill_library raise, and so does any later patch that sorts before 6.55 as a string"
  },
  {
   "property": "C53",
   "status": "partial",
   "theorems": [
    "C53_jobs",
    "C53_exactly_the_declared_skills",
    "C53_own_skills_partial",
    "C53_viper_refuted"
   ],
   "note": "false as stated: between 7.01 and 7.05 Viper has no skill of its own; everything else is proved"
  },
  {
   "property": "C54",
   "status": "proved",
   "theorems": [
    "C54_lookups",
    "C54_pressable",
    "C54_automaton_queen_refuted"
   ],
   "note": ""
  },
  {
   "property": "C55",
   "status": "proved",
   "theorems": [
    "C55_numbers",
    "C55_dots"
   ],
   "note": ""
  },
  {
   "property": "C56",
   "status": "partial",
   "theorems": [
    "C56_combo_actions_exist_partial",
    "C56_moulinet_trois_refuted"
   ],
   "note": "false as stated for RDM's Enchanted Moulinet Trois, which requires a skill that does not exist; proved for all others"
  },
  {
   "property": "C57",
   "status": "proved",
   "theorems": [
    "C57_resources_declared"
   ],
   "note": ""
  },
  {
   "property": "C58",
   "status": "partial",
   "theorems": [
    "C58_allow_lists_partial",
    "C58_swiftcast_refuted",
    "C58_level_90_refuted"
   ],
   "note": "false as stated for Swiftcast on AST, SCH and SGE, and at level 90 for one effect each of PCT and VPR; proved for all others"
  },
  {
   "property": "C59",
   "status": "partial",
   "theorems": [
    "C59_conditions_are_read_partial",
    "C59_off_class_condition",
    "C59_viper_venoms_refuted",
    "C59_firestarter_refuted"
   ],
   "note": "false as stated for two Viper venoms and for BLM's Firestarter in 6.55; proved for all others"
  },
  {
   "property": "C60",
   "status": "partial",
   "theorems": [
    "C60_miss_not_better_partial",
    "C60_press_partial",
    "C60_snap_punch_refuted",
    "C60_sharpcast_refuted"
   ],
   "note": "false as stated for MNK's Snap Punch at level 90; proved for all others, of the hit itself and of the whole press with its follow-up skills"
  },
  {
   "property": "C61",
   "status": "proved",
   "theorems": [
    "C61_waits",
    "C61_deaths"
   ],
   "note": ""
  },
  {
   "property": "C62",
   "status": "proved",
   "theorems": [
    "C62_version_positions"
   ],
   "note": ""
  },
  {
   "property": "C63",
   "status": "proved",
   "theorems": [
    "C63_no_exception",
    "C63_autos_need_a_hit_refuted"
   ],
   "note": "a rotation with auto attacks and no damage raises TypeError"
  },
  {
   "property": "C64",
   "status": "partial",
   "theorems": [
    "C64_shipped_rotations_partial",
    "C64_automaton_queen_refuted",
    "C64_radiant_finale_refuted"
   ],
   "note": "false as stated: Automaton Queen and other jobs' skills that change job resources raise KeyError; proved for rotations without them, whose timed presses of one name are of one skill, and with auto attacks for a weapon delay of at least a second, some hit and downtime ending at whole milliseconds"
  },
  {
   "property": "C65",
   "status": "proved",
   "theorems": [
    "C65_examples_run",
    "C65_test_version_refuted"
   ],
   "note": "for every version but 'test', with which get_example_rotations raises KeyError"
  },
  {
   "property": "C66",
   "status": "partial",
   "theorems": [
    "C66_level_90",
    "C66_library_level_refuted",
    "C66_ninja_haste_refuted"
   ],
   "note": "false as stated: the stats are always of level 90, so that Ninja's haste trait is missing at level 100; it holds for level-90 libraries"
  },
  {
   "property": "C67",
   "status": "proved",
   "theorems": [
    "C67_exactly_the_tables"
   ],
   "note": ""
  },
  {
   "property": "C68",
   "status": "proved",
   "theorems": [
    "C68_every_job",
    "C68_none_before",
    "C68_every_job_at_90_refuted"
   ],
   "note": "at level 90 AST has none"
  },
  {
   "property": "C69",
   "status": "partial",
   "theorems": [
    "C69_potency_partial",
    "C69_effects",
    "C69_dots_partial",
    "C69_spiral_blow_refuted",
    "C69_starcross_refuted",
    "C69_technical_finish_refuted"
   ],
   "note": "false as stated: DRG's Spiral Blow and Starcross ignore the table, WAR's Vengeance and Damnation and BRD's songs do not hit by themselves, and SGE's Eukrasian Dyskrasia borrows another DoT's name; proved for all others. DNC's Technical Finish has no number of its own in the table and differs from Quadruple Technical Finish"
  },
  {
   "property": "C70",
   "status": "proved",
   "theorems": [
    "C70_run",
    "C70_instances",
    "C70_report",
    "C70_zeroed",
    "C70_init",
    "C70_add",
    "C70_add_next",
    "C70_shipped",
    "C70_expiry_refuted",
    "C70_trailing_refuted"
   ],
   "note": "a resource with an expiry never runs out if it was last gained exactly at time 0, and trailing ticks stay if the last event is at time 0; the refuted theorems show both"
  },
  {
   "property": "C71",
   "status": "proved",
   "theorems": [
    "C71_played",
    "C71_presses",
    "C71_sequence",
    "C71_timeline",
    "C71_before",
    "C71_shipped",
    "C71_no_start_refuted",
    "C71_trailing_refuted"
   ],
   "note": "the refuted theorems show that the start time is needed and that trailing ticks must not be dropped"
  },
  {
   "property": "C72",
   "status": "proved",
   "theorems": [
    "C72_queue",
    "C72_timelines",
    "C72_continued",
    "C72_orderly",
    "C72_dots_refuted"
   ],
   "note": "the refuted theorem shows a hit that gains a buff because a DoT is applied again later: each tick uses up the buff at the snapshot of its application, and the ticks that the second application replaces no longer do"
  },
  {
   "property": "C73",
   "status": "proved",
   "theorems": [
    "C73_replay",
    "C73_printed",
    "C73_conditions",
    "C73_printed_refuted",
    "C73_autos_refuted"
   ],
   "note": "the refuted theorems show that a press at 1001 ms is printed as 1.001 s and read as 1000 ms, and that with auto attacks the property is false: casts and channels pressed by add_next do not hold autos back"
  },
  {
   "property": "C74",
   "status": "proved",
   "theorems": [
    "C74_order",
    "C74_ties_refuted",
    "C74_autos_refuted"
   ],
   "note": "the refuted theorems show that the order shows among presses at the same time, and that with auto attacks the property is false: get_no_auto_periods pops the unsorted list as a heap, so a channel added late holds autos back for its full length"
  },
  {
   "property": "C75",
   "status": "proved",
   "theorems": [
    "C75_timed",
    "C75_sequence",
    "C75_shipped_timed",
    "C75_shipped_sequence",
    "C75_counted_refuted",
    "C75_trailing_refuted",
    "C75_autos_refuted",
    "C75_unfit_refuted"
   ],
   "note": "the refuted theorems show that each hypothesis is needed: a single-use effect without allow list is used up, a wait at the end keeps ticks that would be trailing, a wait ends a channel that held autos back, and a wait longer than the recast delays the sequence"
  },
  {
   "property": "C76",
   "status": "proved",
   "theorems": [
    "C76_calls",
    "C76_run",
    "C76_instances",
    "C76_report",
    "C76_shipped",
    "C76_default_refuted",
    "C76_ties_refuted"
   ],
   "note": "the refuted theorems show that both conditions are needed: the rotation builder looks debuffs up under the hard-coded name \"Default Target\", so a hastening debuff works on no other target, and presses of one skill at the same time are ordered by the names of their targets"
  },
  {
   "property": "C77",
   "status": "proved",
   "theorems": [
    "C77_timing",
    "C77_report",
    "C77_skill",
    "C77_job",
    "C77_version"
   ],
   "note": ""
  },
  {
   "property": "C78",
   "status": "proved",
   "theorems": [
    "C78_shipped",
    "C78_sane",
    "C78_timing",
    "C78_damage",
    "C78_expected",
    "C78_kill_time"
   ],
   "note": "expected damage is compared for rates between 0 and 1"
  },
  {
   "property": "C79",
   "status": "proved",
   "theorems": [
    "C79_lines",
    "C79_one_order",
    "C79_rates",
    "C79_samples",
    "C79_cells",
    "C79_saving",
    "C79_snapshots",
    "C79_snapshots_found"
   ],
   "note": "means, variances and sums are exact; the variance stands for its double square root; each cell lies in its range if multipliers are not negative and no draw is 0 (C38)"
  },
  {
   "property": "C80",
   "status": "proved",
   "theorems": [
    "C80_order",
    "C80_order_totals",
    "C80_parts",
    "C80_join",
    "C80_samples",
    "C80_dps_refuted"
   ],
   "note": "sums are exact; the refuted theorem shows that DPS does not add up"
  },
  {
   "property": "C81",
   "status": "proved",
   "theorems": [
    "C81_total",
    "C81_raises",
    "C81_between",
    "C81_more",
    "C81_best",
    "C81_mean"
   ],
   "note": "the mean is exact; without trials the code returns NaN, which is not modelled"
  },
  {
   "property": "C82",
   "status": "partial",
   "theorems": [
    "C82_at_once_partial",
    "C82_longer_refuted",
    "C82_sooner_refuted"
   ],
   "note": "proved when newcomers join only events that snapshot and apply at once, other events apply at once or have one target, and no two things under one name are due at the same time and priority; false for events that apply later: each target is an event of its own, 135 ms apart, which grants the skill's buff again and ends effects as of its own time before hits that land earlier are processed"
  },
  {
   "property": "C83",
   "status": "proved",
   "theorems": [
    "C83_jobs",
    "C83_derived",
    "C83_times",
    "C83_short_refuted"
   ],
   "note": "the refuted theorem shows that the millisecond is lost, e.g. 2009 ms for 2.01 s; haste is for versions the job classes support"
  },
  {
   "property": "C84",
   "status": "partial",
   "theorems": [
    "C84_hit_partial",
    "C84_never_more",
    "C84_whole_refuted",
    "C84_auto_refuted"
   ],
   "note": "proved up to steps whose division comes out even, where the doubles may lose one; except for autos the result is never more than the formulas give. False as stated: a hit of a SAM does 15131 instead of 15132, and every auto of a WAR with weapon damage 129 does 3740 instead of 3759, because 175 * (3.36 / 3) is 195.99.. in doubles"
  },
  {
   "property": "C85",
   "status": "proved",
   "theorems": [
    "C85_ranges",
    "C85_sample",
    "C85_whole_refuted"
   ],
   "note": "the refuted theorem shows that one is really lost: under a buff of 15 % the least damage of a hit of 11095 is 12120, not 12121"
  },
  {
   "property": "C86",
   "status": "proved",
   "theorems": [
    "C86_hits",
    "C86_damage",
    "C86_timed",
    "C86_rotation",
    "C86_shipped",
    "C86_counted_refuted",
    "C86_ranked_refuted"
   ],
   "note": "also assumed: events that apply later than they snapshot have one target, and those of one press are less than half a millisecond of priority apart (orderly). The refuted theorems show that two conditions are needed: a buff for the next skill is used up by the further buff, and a job's priority of effects lets a weak one hide a strong one"
  },
  {
   "property": "C87",
   "status": "proved",
   "theorems": [
    "C87_hits",
    "C87_rows",
    "C87_autos",
    "C87_shipped",
    "C87_timed",
    "C87_next",
    "C87_counted_refuted"
   ],
   "note": "also assumed: events that apply later than they snapshot have one target, and those of one press are less than half a millisecond of priority apart (orderly), and without a given fight start the delay between autos is not negative (shipped: for a weapon delay of at least a second). The refuted theorem shows that a buff for the next skill goes to an auto if its uses are counted"
  },
  {
   "property": "C88",
   "status": "proved",
   "theorems": [
    "C88_rows",
    "C88_mean",
    "C88_exact",
    "C88_raises",
    "C88_one_number"
   ],
   "note": "rolls are exact to within a millionth; the order of several conditions is a Python set's and not modelled"
  },
  {
   "property": "C89",
   "status": "proved",
   "theorems": [
    "C89_kills",
    "C89_buffs",
    "C89_attacks",
    "C89_shipped_buffs",
    "C89_shipped_autos"
   ],
   "note": "both estimates are assumed to succeed (a further limit break without a number raises); buffs and attacks are under the conditions of C86 and C87"
  },
  {
   "property": "C90",
   "status": "proved",
   "theorems": [
    "C90_order",
    "C90_players",
    "C90_samples",
    "C90_sound"
   ],
   "note": "each estimate compared is assumed to succeed; sums of whole damage are exact"
  },
  {
   "property": "C91",
   "status": "proved",
   "theorems": [
    "C91_hit",
    "C91_gear",
    "C91_buffs",
    "C91_shipped_buffs",
    "C91_attacks",
    "C91_shipped_autos",
    "C91_exact_refuted"
   ],
   "note": "means and sums are exact sums of the double probabilities and ranges; the refuted theorem shows that the rounding is needed; buffs and attacks are under the conditions of C86 and C87; the draws with which the code computes ranges are assumed not to be exactly 0 (C38)"
  },
  {
   "property": "C92",
   "status": "proved",
   "theorems": [
    "C92_timeline",
    "C92_hits",
    "C92_mean",
    "C92_kills",
    "C92_shipped_ticks",
    "C92_shipped",
    "C92_shipped_mean",
    "C92_shipped_kills",
    "C92_counted_refuted"
   ],
   "note": "also assumed for hits: events that apply later than they snapshot have one target, and those of one press are less than half a millisecond of priority apart (orderly). The refuted theorem shows that a buff for six uses is used up by ticks that only come later, so that with the setting an earlier hit gains it"
  }
 ]
}