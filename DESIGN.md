# Formal model of the combat simulator: design

Sources: `/repo/ama_xiv_combat_sim` (Python), read as text. The code was never run.
Model and proofs: `/verif/rocq/theories` (Rocq/Coq 8.16.1, logical root `Verif`).
Properties: `properties.jsonl`. Theorem map: `MANIFEST.json`. Wrong-program experiments: `seeded/LOG.jsonl`
(for the data mutants GD*, the theorems listed are those resting on the part of `GamePoints.points_ok` that became false).

## Trusted base

* Coq's kernel, including `vm_compute`, and `coqchk`'s re-check of the compiled files.
* Axioms: none of our own. Every property theorem is followed by `Print Assumptions`; each prints
  "Closed under the global context". `coqchk` additionally lists the seven axioms of the standard library's
  `ssr.ssrunder` (`Under_rel` and friends), which are loaded with the standard library and used by no theorem here.
* The reading of the Python text into Gallina: every model definition cites file and lines.
* `tools/gen_game_data.py`, which turns the syntax trees of the job definitions (Python's own `ast` module) into
  `Data_XXX.v`, node by node. It evaluates nothing; what a node means is defined in `Py.v`.
  `tools/gen_examples.py` copies the tables of the example rotations into `Data_Examples.v` and stops if a file's code
  is not the one modelled.
* The specification files `Spec*.v`: a theorem means what its specification says.

No functors, module types, plugins, unchecked definitions or admitted proofs.
`tools/*.py` other than the above and `tools/conformance.py` (below) only write `properties.jsonl`, `MANIFEST.json` and `seeded/LOG.jsonl`.

### How the reading of the Python text was checked

`tools/conformance.py REPO OUT` replays the project's own tests in the model. It follows the syntax trees of the test
files (nothing of the project runs), turns calls of the project into calls of the model's definitions and comparisons into
boolean checks, and writes Coq files to `OUT`, outside this repository and not part of the build.
`testing/create_test_skill_library.py` is translated the same way.

Result (last run on the model of commit 0c955dc): all 439 replayed tests come out in the model as the project expects,
566 comparisons in 26 test files. 195 tests exercise single parts (queue, lookups, trackers, stat functions, base damage,
rotation and damage builders, simulator), 244 are the job tests in `game_data/testing/patch_*` (the 7.1 files hold only
four tests, and not every job is tested in every patch). `test_simple` of `test_end_to_end.py` compares nothing: it
passes when no exception is raised, in the project and in the replay.
Five tests are not replayed: two sample at random, one estimates a kill time from random samples, two read a CSV file
that is not in the repository.
Numbers are compared with each test's own tolerance (for job damage 0.6% or 0.5%), so agreement there is
approximate; timelines are compared exactly. Where a test draws random numbers, one half is used for every draw.
As a spot check, changing expected numbers by hand made the tests concerned fail.

## Shape of the model

Executable, total Gallina functions, one per Python function, each with a comment citing file and lines.

* **Exceptions** are values: `res A := Ok a | Err e` with `e` naming the Python exception.
  Loops without a structural bound take fuel and return `Err OutOfFuel`; theorems exclude it or show it impossible.
  `Err Unmodelled` marks a run that leaves the modelled part of Python. No theorem treats either as success.
* **Mutable objects** become records returned by the operation. `copy.deepcopy` is the identity.
  Aliasing that the code really uses (the queue returned by `get_skill_timing` is the builder's own,
  `skill_modifier_to_use = skill_modifier` for single-target events) is written into the model.
* **Times** are `Z` milliseconds. Durations and use counts are `ext` (`Fin z | Inf`).
  Times given in seconds and the ends of downtime windows are doubles, rounded as Python does.
* **Floats** are rationals (`Q`); every Python/NumPy double operation is `fl` of the exact operation, where `fl`
  is an executable round-to-nearest-even to 53 bits with unbounded exponent (no overflow, subnormals, NaN, signed zero).
  `np.floor`/`np.ceil` are exact. Integers stay integers where Python keeps them.
* **Strings** are Coq `string` (bytes; Python's comparison by code point agrees on ASCII).
  Condition sets are duplicate-free lists compared as sets.
* **Dicts** are association lists in insertion order with in-place update.
* **heapq** is the CPython algorithm on arrays, with a comparison that may raise.
* **Random draws** are explicit arguments.

## Files

| model | of |
|---|---|
| `Base.v`, `Float.v`, `Heap.v`, `Strings.v` | exceptions, dicts, sorting; doubles; heapq; `utils.canonicalize_condition` |
| `Types.v` | `specs/*.py`, fields of `skills/skill.py`, `skill_modifier.py`, `trackers/status_effects.py` |
| `Lookup.v` | `utils.py` (best key, positional inference, version lookup), `Skill.__post_init__` and accessors |
| `Library.v` | `skills/skill_library.py` |
| `Stats.v` | `game_consts.py`, `calcs/stat_fns.py`, `job_class_fns*.py`, `processed_stats.py`, `stats.py` |
| `StatusEffect.v`, `JobResource.v`, `Combo.v`, `Channeling.v` | `trackers/*.py` |
| `Events.v`, `Rotation.v`, `DamageBuild.v` | `timeline_builders/*.py` |
| `Damage.v` | `calcs/compute_damage_utils.py`, `trackers/damage_tracker.py`, `damage_simulator.py` |
| `KillTime.v`, `Csv.v` | `kill_time_estimator.py`; `csv_utils.py`, `example_rotation_utils.py`, `rotation_analysis_utils.py` |
| `Report.v` | the getters of `damage_simulator.py`, `get_expected_max_in_k_runs` |
| `Export.v` | `print_button_press_timings_as_csv` of `rotation_builder.py`, cell by cell (the printed header and cells have a blank after each comma, and several conditions contain commas; the text itself is not modelled) |
| `Py.v`, `Data_XXX.v` | the Python the job definitions use; `game_data/class_skills/**` (generated) |
| `Examples.v`, `Data_Examples.v` | `example_rotations/**` (tables generated) |
| `GameLib.v` | `create_skill_library.py`, `add_*_skills_to_skill_library.py`, generic skills, limit breaks |

`Spec*.v` hold the specifications, written without the model's helper functions where a helper decides the answer.
`*Facts.v`, `*Props.v`, `Game{Check,Points,Load}.v`, `Safe*.v`, `Example{Check,Facts}.v`, `Run*.v`, `Damage{Run,Story,Trace,Leak}.v`, `Move*.v`, `LaterFacts.v`, `CauseFacts.v`, … hold proofs.
`*Counter.v`, `Fixtures.v`, `{Safe,Move,Later}Case.v` hold concrete cases. `Props*.v` hold only the property theorems
(`exact lemma`), each followed by `Print Assumptions`, and the examples that meet their hypotheses.

## Property by property

| | file | how |
|---|---|---|
| C01-C05 event queue | `PropsQueue` | heap invariant along sift paths for any comparison refining a total preorder; a drain is a sorted permutation; ids by an invariant on the counter; extrema by folds |
| C06-C10 conditions and lookups | `PropsCond` | splitting and trimming by induction on strings; loop invariant "last maximal match of the prefix"; falloff table by computation over its rows |
| C11 library | `PropsLibrary` | refinement of a finite map |
| C12-C15, C42, C43 rotation | `PropsRotation` | the run is related to a "log" of played presses by induction over the sequence; timed presses by the heap argument |
| C16-C18 DoTs | `PropsDots`, `PropsTicks` | applications in order, ticks as arithmetic progressions, consolidation by induction |
| C19-C21 timeline | `PropsTimeline` | drain-and-refill folds; second run duplicates DoT records that consolidate to nothing |
| C22, C23 auto attacks | `PropsAuto` | invariant of the auto loop, fuel shown sufficient |
| C24-C27 status effects | `PropsStatus` | transition lemmas and induction over histories |
| C28-C30 trackers | `PropsTrackers` | refinement to "last action per group"; fold with clamps; channeling windows |
| C31-C33, C47, C48, C51 damage builder | `PropsDamageBuild` | measure on the queue, per-event accounting by permutation |
| C34-C39 damage numbers | `PropsHit` | monotonicity of `fl` and floor; rational arithmetic; sampling bounds |
| C40, C41 kill time, simulator | `PropsHit` | first index of a prefix sum; capacity 5000 |
| C44 speed | `PropsSpeed` | monotonicity of floor and `fl` |
| C45 positionals | `PropsPositional` | search invariant |
| C46, C49, C50 import and analysis | `PropsCsv` | induction over rows and instances |
| C52-C62 shipped library | `PropsGame` | decision procedures (`GameCheck.v`) proved sound, evaluated once at each of the 17 supported positions (`GamePoints.v`), lifted to all version strings by the rank lemma; the worked cases are in `GameCases.v` |
| C63, C64 no exceptions | `PropsSafe` | every step of a run succeeds under an invariant on trackers and events; the shipped skills meet its hypotheses by the same evaluation |
| C65–C68 example rotations | `PropsExamples` | tables and library evaluated at one version per position; a run depends on the version only through its position (`Relabel.v`) |
| C69 data tables | `PropsData` | a check of every active table entry against the loaded skills (`DataCheck.v`), evaluated with the others in `GamePoints.v` and proved sound in `DataFacts.v` |
| C70 moving in time | `PropsMove` | each function of a run is equivariant under adding d to all times (`Move*.v`), one lemma per function |
| C71 going on | `PropsLater`, `PropsTicks` | the log of a longer rotation begins with the log of the shorter one; new DoT applications are inserted into each history and change no tick before them (`LaterFacts.v`) |
| C72 cause | `PropsCause` | the two damage loops run in step until the first event at or after T: below it the next event is the same on both queues (distinct places), a step leaves the same trackers and adds the same events and instances (`CauseFacts.v`) |
| C73 replay | `PropsReplay` | a sequenced press and a timed press at its time compute the same step from the same trackers, so both logs are equal; presses with distinct times are popped in order whatever their other fields (`ReplayFacts.v`) |
| C74 order of calls | `PropsShuffle` | a run uses the timed presses only sorted by time, and distinct times leave one sorted order (`ShuffleFacts.v`) |
| C75 presses that do nothing | `PropsIdle` | trackers differ only in when they were last cleaned up, so later presses read the same (`IdleFacts.v`); `played_determined` makes the log of a rotation unique (`DetermineFacts.v`); the allow lists of the shipped effects are part of the check of each version and level (`IdleGame.v`) |
| C76 names of targets | `PropsTarget` | two runs related step by step (`rrel`): the builder's trackers agree on buffs and either on all debuffs or on none that matter (`TargetFacts.v`), those of the damage builder agree target by target (`TargetDamage.v`); instances never tie up to the comparison of targets; the debuffs of the shipped jobs are part of the check of each version and level (`TargetShip.v`) |
| C77 unpressed skills | `PropsNeed` | the builder with its library replaced (`relib`) runs the same as long as the few lookups agree; adding to a library keeps those lookups (`NeedFacts.v`) |
| C78 better gear | `PropsGear` | the builder with its stats replaced (`restat`) runs the same; every cell of the damage matrix is a monotone function of the base damage, the crit rate and the direct hit rate (`GearDamage.v`); no negative number is an invariant of both builders (`SaneFacts.v`) |
| C79-C81 reports | `PropsReport` | every getter is a column of one list of rows; a stable order of time is unique; the reported ranges do not depend on the draws, so totals are sums over rows (`ReportFacts.v`) |
| C82 newcomers | `PropsSpread` | the two damage loops run in step with the same buffs and the same debuffs on the others (`SpreadFacts.v`) |
| C83-C85 whole numbers | `PropsExact` | a double within 1/d of n/d rounds down like n/d, unless n/d is whole (`ExactFloat.v`); relative errors of up to four roundings (`near`) stay below that for the sizes in play; a double of at least n(1 - 2^-54) rounds to n (`fl_snap`), so that 95, 105, 120 and 130 percent lose nothing |
| C86 further buffs | `PropsBuff` | a builder run without the extra presses keeps trackers that agree on everything but the extra effects (`BuffTime.v`), and so does a damage run (`BuffFacts.v`); every cell of the damage matrix is monotone in the effects (`BuffDamage.v`); the shipped buffs are part of the check of each version and level (`BuffGame.v`) |
| C87 further attacks | `PropsStrike` | a damage run with the further events keeps trackers that agree with the smaller run's on everything later hits can see (`StrikeFacts.v`); autos are added after everything else (`StrikeAuto.v`), and a press that grants nothing leaves the rest of the timeline (`IdleFacts.v`, `StrikeTimed.v`); that shipped autos are plain is part of the check of each version and level (`StrikeGame.v`) |
| C88 kill-time damage | `PropsLb` | the number is specified by appending digits and shown equal to what the regular expression captures (`LbFacts.v`) |
| C89 kills not delayed | `PropsAid` | the rows of the longer estimate are, up to a permutation, those of the shorter one raised and some more; the pairing of hits is an injection of row indices, so that draws can be compared (`AidFacts.v`) |
| C90 who is in an estimate | `PropsParty` | the fate of a sample is unique and invariant under permutations of the rows (`KillFacts.v`, `PartyFacts.v`) |
| C91 expected damage | `PropsMean` | the mean is a mixture of four outcomes ordered by crit and direct hit; rounded weights are within 2^-51 of the exact ones (`MeanFacts.v`) |
| C92 trailing ticks | `PropsTrail`, `PropsTicks` | the dropped ticks are those later than the last event (C18), and events that grant nothing and are not counted leave the other hits alone (C87); every tick of the shipped libraries is checked to be such an event (`ticks_ok`) |

A theorem ending in `_partial` proves part of its property; one ending in `_refuted` shows by a concrete case that the
property (or a natural strengthening of it) is false of the code. `MANIFEST.json` says what is missing.

## Simplifications worth knowing

* A version string matters only by its order among the five patch names (C62); positions strictly between "6.55" and
  "7.0" at level 90 make Monk's definitions raise `AttributeError`; the model reports `Err Unmodelled` there (C52 says so).
* Comparing two different skills of one name with `<` raises in Python in a way the model does not follow
  (`Unmodelled`); C63 and C64 assume timed presses of one name are of one skill.
* An auto attack moved to the end of a downtime window that is not a whole millisecond is `Unmodelled`.
* C21, C16: effects that Python's `==` confuses (equal by value, different condition) are excluded by `distinguishable`.
* Sums of damage in C39, C40, C49, C79-C81 are exact.
* `add_resource` before `set_current_job_class` (key `None`) is `Unmodelled`.
* If `get_resources` and `get_skills` of one class both raised, the model might name the other exception.

## Not modelled

Log parsing, plotting and printing, pandas file reading, NumPy's random generator, NaN and overflow, wall-clock time,
Python's hash order of sets (theorems hold for any order), the test files and `testing/create_test_skill_library.py` (only replayed, see above).
