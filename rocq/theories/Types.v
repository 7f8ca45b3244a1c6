(** * Skills, specs and modifiers.

    Models simulator/specs/*.py, simulator/skills/skill.py (fields, lines 17-45),
    simulator/skills/skill_modifier.py, simulator/calcs/{damage_class,forced_crit_or_dh}.py
    and simulator/trackers/status_effects.py. *)

From Coq Require Import ZArith QArith List String Bool.
From Verif Require Import Base Strings.
Import ListNotations.
Open Scope Z_scope.

(** simulator/calcs/forced_crit_or_dh.py lines 3-7 *)
Inductive forced : Set := F_UNKNOWN | F_DEFAULT | F_NO | F_YES.
Definition forced_eqb (a b : forced) : bool :=
  match a, b with
  | F_UNKNOWN, F_UNKNOWN | F_DEFAULT, F_DEFAULT | F_NO, F_NO | F_YES, F_YES => true
  | _, _ => false
  end.

(** simulator/calcs/damage_class.py lines 3-9 *)
Inductive dclass : Set := DC_UNKNOWN | DC_DIRECT | DC_MAGICAL_DOT | DC_PHYSICAL_DOT | DC_AUTO | DC_PET.
Definition dclass_eqb (a b : dclass) : bool :=
  match a, b with
  | DC_UNKNOWN, DC_UNKNOWN | DC_DIRECT, DC_DIRECT | DC_MAGICAL_DOT, DC_MAGICAL_DOT
  | DC_PHYSICAL_DOT, DC_PHYSICAL_DOT | DC_AUTO, DC_AUTO | DC_PET, DC_PET => true
  | _, _ => false
  end.

(** simulator/specs/damage_spec.py lines 6-18. Potency [None] is not modelled. *)
Record damage_spec := mkDamage {
  potency : Q;
  damage_class : dclass;
  ds_crit : forced;
  ds_dh : forced;
  trait_damage_mult_override : option Q;
  pet_job_mod_override : option Q;
  pet_scalar : Q;
  use_min_potency : option Q;
  single_damage_mult : Q
}.

(** simulator/specs/timing_spec.py lines 5-11, all in ms; [gcd_base_recast] after
    the default of line 23. *)
Record timing_spec := mkTiming {
  base_cast_time : Z;
  gcd_base_recast : Z;
  animation_lock : Z;
  application_delay : Z;
  affected_by_speed_stat : bool;
  affected_by_haste_buffs : bool
}.

(** simulator/specs/status_effect_spec.py lines 8-38, after the defaults of
    lines 41-44.  The unused-by-the-builders field is_party_effect is kept. *)
Record status_spec := mkStatus {
  duration : ext;
  max_duration : ext;
  num_uses : ext;
  max_num_uses : ext;
  crit_rate_add : Q;
  dh_rate_add : Q;
  damage_mult : Q;
  main_stat_add : Q;
  main_stat_mult : Q;
  auto_attack_delay_reduction : Q;
  haste_time_reduction : Q;
  flat_cast_time_reduction : ext;
  flat_gcd_recast_time_reduction : Z;
  extends_existing_duration : bool;
  expires_status_effects : list string;
  se_allowlist : option (list string);
  se_crit : forced;
  se_dh : forced;
  add_to_skill_modifier_condition : bool;
  extend_only : bool;
  is_party_effect : bool;
  clear_all_status_effects : bool
}.

(** simulator/specs/channeling_spec.py lines 6-9 *)
Record channeling_spec := mkChanneling {
  ch_duration : ext;
  ch_allowlist : list string;
  ch_num_uses : ext
}.

(** simulator/specs/job_resource_spec.py lines 6-17.  [change] is an integer, or
    [-math.inf] for the marker written by JobResourceTracker.__clear_resources. *)
Inductive change : Set := Change (z : Z) | ChangeNegInf.
Record jr_spec := mkJr {
  jr_name : string;
  jr_change : change;
  jr_duration : ext;
  jr_refreshes : bool;
  jr_clear_all : bool
}.

(** simulator/specs/job_resource_settings.py lines 6-10 *)
Record jr_settings := mkJrSettings {
  jrs_max : Z;
  jrs_allowlist : list string;
  jrs_expiry : ext;
  jrs_add_number : bool
}.

(** simulator/specs/combo_spec.py lines 5-9 *)
Record combo_spec := mkCombo {
  combo_actions : list string;
  combo_group : Z;
  combo_auto_succeed : bool;
  break_all_combos_only : bool
}.

(** simulator/specs/follow_up.py lines 6-12 *)
Record follow_up_of (S : Type) := mkFollowUp {
  fu_skill : S;
  fu_delay : Z;
  fu_snap_buffs : bool;
  fu_snap_debuffs : bool;
  fu_dot : option Z;
  fu_primary_only : bool
}.
Arguments mkFollowUp {S}.
Arguments fu_skill {S}.
Arguments fu_delay {S}.
Arguments fu_snap_buffs {S}.
Arguments fu_snap_debuffs {S}.
Arguments fu_dot {S}.
Arguments fu_primary_only {S}.

(** A field that is None, a spec, or a dict from condition sets to (possibly
    None) specs; dict keys are already canonical (Skill.__post_init__). *)
Inductive cspec (A : Type) :=
| CNone
| COne (a : A)
| CDict (d : list (cond * option A)).
Arguments CNone {A}.
Arguments COne {A} a.
Arguments CDict {A} d.

(** A field that is a tuple of specs or a dict of tuples. *)
Inductive tspec (A : Type) :=
| TTuple (l : list A)
| TDict (d : list (cond * list A)).
Arguments TTuple {A} l.
Arguments TDict {A} d.

(** simulator/skills/skill.py lines 21-45.  [has_aoe] (never read) and
    [aoe_dropoff] (consumed by __post_init__, see Lookup.v) are left out. *)
Inductive skill := mkSkill {
  sk_name : string;
  sk_damage : cspec damage_spec;
  sk_timing : cspec timing_spec;
  sk_buff : cspec status_spec;
  sk_debuff : cspec status_spec;
  sk_channeling : cspec channeling_spec;
  sk_job_resource : tspec jr_spec;
  sk_combo : tspec combo_spec;
  sk_denylist : list string;
  sk_is_GCD : bool;
  sk_ignored_conditions : list string;
  sk_job_resources_snapshot : bool;
  sk_follow_ups : tspec (follow_up_of skill);
  sk_off_class_default : string
}.
Definition follow_up := follow_up_of skill.

(** simulator/skills/skill_modifier.py lines 11-28 *)
Record modifier := mkModifier {
  sm_crit : forced;
  sm_dh : forced;
  sm_cond : cond;
  sm_force_combo : bool;
  sm_ignore_cast_times : bool;
  sm_ignore_application_delay : bool;
  sm_bonus_percent : option Q
}.
(** [SkillModifier()] *)
Definition default_modifier : modifier :=
  mkModifier F_DEFAULT F_DEFAULT [] false false false None.
(** [SkillModifier(with_condition=c)], skill_modifier.py line 23 *)
Definition modifier_with (c : string) : modifier :=
  mkModifier F_DEFAULT F_DEFAULT (canonicalize c) false false false None.

Definition set_cond (m : modifier) (c : cond) : modifier :=
  mkModifier (sm_crit m) (sm_dh m) c (sm_force_combo m) (sm_ignore_cast_times m)
    (sm_ignore_application_delay m) (sm_bonus_percent m).

(** skill_modifier.py lines 36-43 *)
Definition add_to_condition (m : modifier) (c : string) : modifier :=
  match c with
  | EmptyString => m
  | _ => set_cond m (set_union (sm_cond m) (canonicalize c))
  end.
(** skill_modifier.py lines 32-34 *)
Definition remove_from_condition (m : modifier) (c : string) : modifier :=
  set_cond m (sremove c (sm_cond m)).

(** skill_modifier.py lines 45-50: only three of the fields are compared. *)
Definition modifier_eqb (a b : modifier) : bool :=
  forced_eqb (sm_crit a) (sm_crit b) && forced_eqb (sm_dh a) (sm_dh b)
  && cond_eqb (sm_cond a) (sm_cond b).

(** simulator/trackers/status_effects.py lines 6-19 *)
Record status_effects := mkEffects {
  ef_crit_rate_add : Q;
  ef_dh_rate_add : Q;
  ef_damage_mult : Q;
  ef_main_stat_add : Q;
  ef_main_stat_mult : Q;
  ef_auto_delay_mult : Q;
  ef_haste_mult : Q;
  ef_flat_cast : ext;
  ef_flat_gcd : Z;
  ef_crit : forced;
  ef_dh : forced;
  ef_names : list string
}.
(** status_effects.py lines 21-35: all but the names. *)
Definition effects_eqb (a b : status_effects) : bool :=
  Qeq_bool (ef_crit_rate_add a) (ef_crit_rate_add b)
  && Qeq_bool (ef_dh_rate_add a) (ef_dh_rate_add b)
  && Qeq_bool (ef_damage_mult a) (ef_damage_mult b)
  && Qeq_bool (ef_main_stat_add a) (ef_main_stat_add b)
  && Qeq_bool (ef_main_stat_mult a) (ef_main_stat_mult b)
  && Qeq_bool (ef_auto_delay_mult a) (ef_auto_delay_mult b)
  && Qeq_bool (ef_haste_mult a) (ef_haste_mult b)
  && ext_eqb (ef_flat_cast a) (ef_flat_cast b)
  && Z.eqb (ef_flat_gcd a) (ef_flat_gcd b)
  && forced_eqb (ef_crit a) (ef_crit b)
  && forced_eqb (ef_dh a) (ef_dh b).

(** ** Dataclass equality (generated [__eq__]: field by field).

    Dicts are compared regardless of key order, keys as sets. *)

Definition damage_eqb (a b : damage_spec) : bool :=
  Qeq_bool (potency a) (potency b)
  && dclass_eqb (damage_class a) (damage_class b)
  && forced_eqb (ds_crit a) (ds_crit b)
  && forced_eqb (ds_dh a) (ds_dh b)
  && opt_eqb Qeq_bool (trait_damage_mult_override a) (trait_damage_mult_override b)
  && opt_eqb Qeq_bool (pet_job_mod_override a) (pet_job_mod_override b)
  && Qeq_bool (pet_scalar a) (pet_scalar b)
  && opt_eqb Qeq_bool (use_min_potency a) (use_min_potency b)
  && Qeq_bool (single_damage_mult a) (single_damage_mult b).

Definition timing_eqb (a b : timing_spec) : bool :=
  Z.eqb (base_cast_time a) (base_cast_time b)
  && Z.eqb (gcd_base_recast a) (gcd_base_recast b)
  && Z.eqb (animation_lock a) (animation_lock b)
  && Z.eqb (application_delay a) (application_delay b)
  && Bool.eqb (affected_by_speed_stat a) (affected_by_speed_stat b)
  && Bool.eqb (affected_by_haste_buffs a) (affected_by_haste_buffs b).

Definition status_eqb (a b : status_spec) : bool :=
  ext_eqb (duration a) (duration b)
  && ext_eqb (max_duration a) (max_duration b)
  && ext_eqb (num_uses a) (num_uses b)
  && ext_eqb (max_num_uses a) (max_num_uses b)
  && Qeq_bool (crit_rate_add a) (crit_rate_add b)
  && Qeq_bool (dh_rate_add a) (dh_rate_add b)
  && Qeq_bool (damage_mult a) (damage_mult b)
  && Qeq_bool (main_stat_add a) (main_stat_add b)
  && Qeq_bool (main_stat_mult a) (main_stat_mult b)
  && Qeq_bool (auto_attack_delay_reduction a) (auto_attack_delay_reduction b)
  && Qeq_bool (haste_time_reduction a) (haste_time_reduction b)
  && ext_eqb (flat_cast_time_reduction a) (flat_cast_time_reduction b)
  && Z.eqb (flat_gcd_recast_time_reduction a) (flat_gcd_recast_time_reduction b)
  && Bool.eqb (extends_existing_duration a) (extends_existing_duration b)
  && list_eqb String.eqb (expires_status_effects a) (expires_status_effects b)
  && opt_eqb (list_eqb String.eqb) (se_allowlist a) (se_allowlist b)
  && forced_eqb (se_crit a) (se_crit b)
  && forced_eqb (se_dh a) (se_dh b)
  && Bool.eqb (add_to_skill_modifier_condition a) (add_to_skill_modifier_condition b)
  && Bool.eqb (extend_only a) (extend_only b)
  && Bool.eqb (is_party_effect a) (is_party_effect b)
  && Bool.eqb (clear_all_status_effects a) (clear_all_status_effects b).

Definition channeling_eqb (a b : channeling_spec) : bool :=
  ext_eqb (ch_duration a) (ch_duration b)
  && list_eqb String.eqb (ch_allowlist a) (ch_allowlist b)
  && ext_eqb (ch_num_uses a) (ch_num_uses b).

Definition change_eqb (a b : change) : bool :=
  match a, b with
  | Change x, Change y => Z.eqb x y
  | ChangeNegInf, ChangeNegInf => true
  | _, _ => false
  end.

Definition jr_eqb (a b : jr_spec) : bool :=
  String.eqb (jr_name a) (jr_name b)
  && change_eqb (jr_change a) (jr_change b)
  && ext_eqb (jr_duration a) (jr_duration b)
  && Bool.eqb (jr_refreshes a) (jr_refreshes b)
  && Bool.eqb (jr_clear_all a) (jr_clear_all b).

Definition combo_eqb (a b : combo_spec) : bool :=
  list_eqb String.eqb (combo_actions a) (combo_actions b)
  && Z.eqb (combo_group a) (combo_group b)
  && Bool.eqb (combo_auto_succeed a) (combo_auto_succeed b)
  && Bool.eqb (break_all_combos_only a) (break_all_combos_only b).

(** Lookup in a dict keyed by frozensets. *)
Fixpoint cget {V} (k : cond) (d : list (cond * V)) : option V :=
  match d with
  | [] => None
  | (k', v) :: d' => if cond_eqb k k' then Some v else cget k d'
  end.

Section DictEq.
  Context {V : Type} (veqb : V -> V -> bool).
  (** [d1 == d2]: same number of keys and equal values key by key. *)
  Definition cdict_eqb (d1 d2 : list (cond * V)) : bool :=
    Nat.eqb (List.length d1) (List.length d2)
    && forallb (fun kv => match cget (fst kv) d2 with
                          | Some v2 => veqb (snd kv) v2
                          | None => false
                          end) d1.
End DictEq.

Definition cspec_eqb {A} (eqb : A -> A -> bool) (a b : cspec A) : bool :=
  match a, b with
  | CNone, CNone => true
  | COne x, COne y => eqb x y
  | CDict d, CDict d' => cdict_eqb (opt_eqb eqb) d d'
  | _, _ => false
  end.

Definition tspec_eqb {A} (eqb : A -> A -> bool) (a b : tspec A) : bool :=
  match a, b with
  | TTuple l, TTuple l' => list_eqb eqb l l'
  | TDict d, TDict d' => cdict_eqb (list_eqb eqb) d d'
  | _, _ => false
  end.

Definition fu_eqb {S} (eqb : S -> S -> bool) (a b : follow_up_of S) : bool :=
  eqb (fu_skill a) (fu_skill b)
  && Z.eqb (fu_delay a) (fu_delay b)
  && Bool.eqb (fu_snap_buffs a) (fu_snap_buffs b)
  && Bool.eqb (fu_snap_debuffs a) (fu_snap_debuffs b)
  && opt_eqb Z.eqb (fu_dot a) (fu_dot b)
  && Bool.eqb (fu_primary_only a) (fu_primary_only b).

(** Skill.__eq__ (generated by @dataclass, skill.py line 17). *)
Fixpoint skill_eqb (a b : skill) {struct a} : bool :=
  String.eqb (sk_name a) (sk_name b)
  && cspec_eqb damage_eqb (sk_damage a) (sk_damage b)
  && cspec_eqb timing_eqb (sk_timing a) (sk_timing b)
  && cspec_eqb status_eqb (sk_buff a) (sk_buff b)
  && cspec_eqb status_eqb (sk_debuff a) (sk_debuff b)
  && cspec_eqb channeling_eqb (sk_channeling a) (sk_channeling b)
  && tspec_eqb jr_eqb (sk_job_resource a) (sk_job_resource b)
  && tspec_eqb combo_eqb (sk_combo a) (sk_combo b)
  && list_eqb String.eqb (sk_denylist a) (sk_denylist b)
  && Bool.eqb (sk_is_GCD a) (sk_is_GCD b)
  && list_eqb String.eqb (sk_ignored_conditions a) (sk_ignored_conditions b)
  && Bool.eqb (sk_job_resources_snapshot a) (sk_job_resources_snapshot b)
  && tspec_eqb (fu_eqb skill_eqb) (sk_follow_ups a) (sk_follow_ups b)
  && String.eqb (sk_off_class_default a) (sk_off_class_default b).

(** FollowUp.__eq__ (generated, follow_up.py line 5). *)
Definition follow_up_eqb (a b : follow_up) : bool := fu_eqb skill_eqb a b.
