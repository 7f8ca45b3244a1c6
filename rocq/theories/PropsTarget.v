(** * C76: the names of the targets do not matter *)

From Coq Require Import ZArith QArith List String Bool.
From Verif Require Import Base Float Strings Types Lookup Stats Library StatusEffect Events Rotation DamageBuild Damage Relabel Fixtures GameLib SpecTimeline SpecRun SpecMove
  SpecReplay SpecShuffle SpecTarget RunCounter TargetFacts TargetDamage TargetCase TargetShip.
Import ListNotations.
Open Scope string_scope.
Open Scope Z_scope.

(** ** The calls that build a rotation *)

Theorem C76_calls f st lib snap au ig fs w target l l' :
  keeps_apart f -> Forall2 (instr_as f target) l l' ->
  (let* b := rb_init st lib snap au ig fs (raw_windows_as f w) (f target) in follow b l')
  = rmap (builder_as f) (let* b := rb_init st lib snap au ig fs w target in follow b l).
Proof. intros F. exact (calls_as f F st lib snap au ig fs w target l l'). Qed.
Print Assumptions C76_calls.

Example C76_calls_case :
  keeps_apart tg_f /\ Forall2 (instr_as tg_f DEFAULT_TARGET) tg_l tg_l'
  /\ (let* b := tg_init tg_windows DEFAULT_TARGET in follow b tg_l) = Ok tg_b
  /\ raw_windows_as tg_f tg_windows = RWDict [("Zed", [(dec 32 10, dec 38 10, None)])]
  /\ map (fun i => match i with NextPress c _ | PressAt _ c => c_targets c end) tg_l' = [Some "Zed"; Some "Zed, Other"; Some "Zed"; None]
  /\ (let* b := tg_init (RWDict [("Zed", [(dec 32 10, dec 38 10, None)])]) DEFAULT_TARGET in follow b tg_l') = Ok (builder_as tg_f tg_b).
Proof.
  split; [exact (exchange_apart _ _)|]. split; [exact tg_named|]. split; [exact (proj1 tg_ok)|]. split; [reflexivity|]. split; [reflexivity|exact tg_renamed].
Qed.

(** ** The timeline *)

Theorem C76_run f b :
  keeps_apart f -> ties_agree b -> f DEFAULT_TARGET = DEFAULT_TARGET \/ debuffs_apart b ->
  get_skill_timing (builder_as f b) = rmap (builder_as f) (get_skill_timing b).
Proof. intros F T D. exact (run_as f F (debuff_of b) b T (plays_calm f b D)). Qed.
Print Assumptions C76_run.

Example C76_run_case :
  (keeps_apart tg_f /\ ties_agree tg_b /\ tg_f DEFAULT_TARGET = DEFAULT_TARGET /\ get_skill_timing tg_b = Ok tg_r
   /\ line_up tg_r
      = [(-1150, "Weaken", ["Add"]); (-500, "Hit", ["Add"; "Other"]); (0, "Auto", ["Add"]); (1940, "Hit", ["Add"; "Other"]); (4850, "Burn", ["Add"]);
         (4850, "Burn (tick)", ["Add"]); (4850, "Burn (tick)", ["Add"]); (4850, "Burn (tick)", ["Add"]); (4850, "Burn (tick)", ["Add"]);
         (4850, "Burn (tick)", ["Add"]); (5810, "Cast", ["Default Target"]); (6880, "Auto", ["Default Target"]); (10320, "Auto", ["Default Target"]);
         (13760, "Auto", ["Default Target"])])
  /\ (keeps_apart nm_f /\ ties_agree nm_b /\ nm_f DEFAULT_TARGET = "Boss" /\ debuffs_apart nm_b /\ get_skill_timing nm_b = Ok nm_r
      /\ line_up nm_r
         = [(-1800, "Boost", ["Default Target"]); (-1150, "Weaken", ["Default Target"; "Add"]); (-500, "Hit", ["Add"]); (0, "Auto", ["Add"]); (3440, "Auto", ["Add"]);
            (5200, "Hit", ["Default Target"])]).
Proof.
  split.
  - split; [exact (exchange_apart _ _)|]. split; [exact tg_ties|]. split; [exact tg_home|]. split; [exact (proj2 tg_ok)|exact tg_shown].
  - split; [exact (exchange_apart _ _)|]. split; [exact nm_ties|]. split; [reflexivity|]. split; [exact nm_apart|]. split; [exact (proj2 nm_ok)|exact nm_shown].
Qed.

(** ** The damage *)

Theorem C76_instances f st lib tk b r :
  keeps_apart f -> reachable b -> ties_agree b -> f DEFAULT_TARGET = DEFAULT_TARGET \/ debuffs_apart b ->
  get_skill_timing b = Ok r -> db_init st lib = Ok tk ->
  match get_damage_instances tk (b_queue r) with
  | Ok (_, _, out) => exists tk' qu', get_damage_instances tk (queue_as f (b_queue r)) = Ok (tk', qu', map (instance_as f) out)
  | Err e => get_damage_instances tk (queue_as f (b_queue r)) = Err e
  end.
Proof. intros F B T D. exact (instances_as f F (debuff_of b) st lib tk b r B T (plays_calm f b D)). Qed.
Print Assumptions C76_instances.

Theorem C76_report f b n u u' :
  keeps_apart f -> reachable b -> ties_agree b -> f DEFAULT_TARGET = DEFAULT_TARGET \/ debuffs_apart b ->
  report_of (builder_as f b) n u u' = rmap (report_as f) (report_of b n u u').
Proof. intros F B T D. exact (report_names f F (debuff_of b) b n u u' B T (plays_calm f b D)). Qed.
Print Assumptions C76_report.

Example C76_instances_case :
  reachable nm_b
  /\ (let* tk := db_init (b_stats nm_b) (b_library nm_b) in let* (_, _, out) := get_damage_instances tk (b_queue nm_r) in
      Ok (map (fun i => (di_time i, sk_name (di_skill i), di_target i, ef_names (snd (di_effects i)))) out))
     = Ok [(0, "Hit", "Add", ["Weaken"]); (100, "Auto", "Add", ["Weaken"]); (3540, "Auto", "Add", ["Weaken"]); (5700, "Hit", "Default Target", ["Weaken"])]
  /\ (let* tk := db_init (b_stats nm_b) (b_library nm_b) in let* (_, _, out) := get_damage_instances tk (queue_as nm_f (b_queue nm_r)) in
      Ok (map (fun i => (di_time i, sk_name (di_skill i), di_target i, ef_names (snd (di_effects i)))) out))
     = Ok [(0, "Hit", "Add", ["Weaken"]); (100, "Auto", "Add", ["Weaken"]); (3540, "Auto", "Add", ["Weaken"]); (5700, "Hit", "Boss", ["Weaken"])].
Proof. split; [|split; vm_compute; reflexivity]. exact nm_reachable. Qed.

(** ** The shipped jobs *)

Theorem C76_shipped f v lv b n u u' :
  create_skill_library v lv = Ok (b_library b) -> built b -> keeps_apart f -> ties_agree b ->
  get_skill_timing (builder_as f b) = rmap (builder_as f) (get_skill_timing b)
  /\ report_of (builder_as f b) n u u' = rmap (report_as f) (report_of b n u u').
Proof.
  intros C B F T. pose proof (or_intror (shipped_apart v lv b C B) : f DEFAULT_TARGET = DEFAULT_TARGET \/ debuffs_apart b) as D.
  exact (conj (C76_run f b F T D) (C76_report f b n u u' F (RunProps.built_reachable b B) T D)).
Qed.
Print Assumptions C76_shipped.

Example C76_shipped_case : exists b r,
  create_skill_library "7.05" 100 = Ok (b_library b) /\ built b /\ ties_agree b /\ get_skill_timing b = Ok r
  /\ line_up r = [(1000, "Broil IV", ["Default Target"]); (1600, "Chain Stratagem", ["Default Target"]); (3500, "Broil IV", ["Default Target"]); (9000, "Broil IV", ["Add"])].
Proof. exact st_case. Qed.

(** ** What fails otherwise *)

(** A debuff that hastens works only on a target called "Default Target". *)
Theorem C76_default_refuted :
  ~ (forall f b, keeps_apart f -> built b -> ties_agree b -> get_skill_timing (builder_as f b) = rmap (builder_as f) (get_skill_timing b)).
Proof. exact default_counter. Qed.
Print Assumptions C76_default_refuted.
Example C76_default_refuted_case :
  rmap (fun r => map (fun e => (ev_primary e, sk_name (ev_skill e))) (timeline r)) (get_skill_timing sl_b)
    = Ok [(0, "Slow"); (650, "Hit"); (2600, "Hit"); (4550, "Hit")]
  /\ rmap (fun r => map (fun e => (ev_primary e, sk_name (ev_skill e))) (timeline r)) (get_skill_timing (builder_as nm_f sl_b))
    = Ok [(0, "Slow"); (650, "Hit"); (3090, "Hit"); (5530, "Hit")].
Proof. exact sl_shown. Qed.

(** Among presses of one skill at the same time the names of the targets decide. *)
Theorem C76_ties_refuted :
  ~ (forall f b, keeps_apart f -> built b -> f DEFAULT_TARGET = DEFAULT_TARGET -> get_skill_timing (builder_as f b) = rmap (builder_as f) (get_skill_timing b)).
Proof. exact ties_counter. Qed.
Print Assumptions C76_ties_refuted.
