(** * Specification vocabulary for damage numbers (C34-C41) *)

From Coq Require Import ZArith QArith Qround List String Bool.
From Verif Require Import Base Float Types Lookup StatusEffect Stats DamageBuild Damage.
Import ListNotations.
Open Scope string_scope.
Open Scope Z_scope.

(** ** Forced crits and direct hits *)

(** Damage spec, modifier, buffs and debuffs each may force or forbid. *)
Definition dh_sources (d : damage_spec) (m : modifier) (e : effects2) : list forced :=
  [ds_dh d; sm_dh m; ef_dh (fst e); ef_dh (snd e)].
Definition crit_sources (d : damage_spec) (m : modifier) (e : effects2) : list forced :=
  [ds_crit d; sm_crit m; ef_crit (fst e); ef_crit (snd e)].
Definition contradictory (l : list forced) : Prop := In F_YES l /\ In F_NO l.
Inductive rate_is (base buffs debuffs : Q) (l : list forced) : Q -> Prop :=
| rate_forced : In F_YES l -> ~ In F_NO l -> rate_is base buffs debuffs l 1
| rate_forbidden : In F_NO l -> ~ In F_YES l -> rate_is base buffs debuffs l 0
| rate_free : ~ In F_YES l -> ~ In F_NO l -> rate_is base buffs debuffs l (fadd (fadd base buffs) debuffs).
(** The bonus of a forced hit: [size] times the rate additions. *)
Inductive bonus_is (size buffs debuffs : Q) (l : list forced) : Q -> Prop :=
| bonus_forced : In F_YES l -> bonus_is size buffs debuffs l (fmul size (fadd buffs debuffs))
| bonus_none : ~ In F_YES l -> bonus_is size buffs debuffs l 0.

(** The same hit without rate additions and without its single damage multiplier. *)
Definition no_rates (e : status_effects) : status_effects :=
  mkEffects 0 0 (ef_damage_mult e) (ef_main_stat_add e) (ef_main_stat_mult e) (ef_auto_delay_mult e) (ef_haste_mult e)
    (ef_flat_cast e) (ef_flat_gcd e) (ef_crit e) (ef_dh e) (ef_names e).
Definition plain (d : damage_spec) : damage_spec :=
  mkDamage (potency d) (damage_class d) (ds_crit d) (ds_dh d) (trait_damage_mult_override d) (pet_job_mod_override d)
    (pet_scalar d) (use_min_potency d) 1.

(** ** Better gear *)

(** The arguments of Stats. *)
Record gear := mkGear {
  g_wd : Q; g_delay : option Q; g_main : Q; g_det : Q; g_dh : Q; g_crit : Q; g_speed : Q;
  g_job : string; g_version : string; g_ten : option Q; g_roles : Q; g_healer : option Q; g_level : Z
}.
Definition stats_of (g : gear) : res stats :=
  make_stats (g_wd g) (g_delay g) (g_main g) (g_det g) (g_dh g) (g_crit g) (g_speed g) (g_job g) (g_version g)
    (g_ten g) (g_roles g) (g_healer g) (g_level g).
Definition opt_le (a b : option Q) : Prop :=
  match a, b with Some x, Some y => (x <= y)%Q | None, None => True | _, _ => False end.
Definition opt_nonneg (a : option Q) : Prop := match a with Some x => (0 <= x)%Q | None => True end.
(** No number is smaller; same job, version and level. *)
Definition better (g g' : gear) : Prop :=
  (g_wd g <= g_wd g')%Q /\ opt_le (g_delay g) (g_delay g') /\ (g_main g <= g_main g')%Q /\ (g_det g <= g_det g')%Q
  /\ (g_dh g <= g_dh g')%Q /\ (g_crit g <= g_crit g')%Q /\ (g_speed g <= g_speed g')%Q /\ opt_le (g_ten g) (g_ten g')
  /\ (g_roles g <= g_roles g')%Q /\ opt_le (g_healer g) (g_healer g')
  /\ g_job g' = g_job g /\ g_version g' = g_version g /\ g_level g' = g_level g.
Definition gear_nonneg (g : gear) : Prop :=
  (0 <= g_wd g)%Q /\ opt_nonneg (g_delay g) /\ (0 <= g_det g)%Q /\ (0 <= g_dh g)%Q /\ (0 <= g_crit g)%Q
  /\ (0 <= g_speed g)%Q /\ opt_nonneg (g_ten g) /\ (0 <= g_roles g)%Q /\ opt_nonneg (g_healer g).
(** More potency, all else equal. *)
Definition stronger (d d' : damage_spec) : Prop :=
  (potency d <= potency d')%Q /\ damage_class d' = damage_class d /\ ds_crit d' = ds_crit d /\ ds_dh d' = ds_dh d
  /\ trait_damage_mult_override d' = trait_damage_mult_override d /\ pet_job_mod_override d' = pet_job_mod_override d
  /\ pet_scalar d' = pet_scalar d /\ single_damage_mult d' = single_damage_mult d.
Definition spec_nonneg (d : damage_spec) : Prop :=
  (0 <= potency d)%Q /\ opt_nonneg (pet_job_mod_override d) /\ (0 <= pet_scalar d)%Q /\ (0 <= single_damage_mult d)%Q.
Definition effects_nonneg (e : status_effects) : Prop :=
  (0 <= ef_crit_rate_add e)%Q /\ (0 <= ef_dh_rate_add e)%Q /\ (0 <= ef_main_stat_mult e)%Q.

(** ** Outcomes *)

Definition in_unit (x : Q) : Prop := (0 <= x <= 1)%Q.
Definition total_prob (l : list outcome) : Q := qsum (map o_prob l).
Fixpoint sum_over {A} (f : A -> Q) (l : list A) : Q :=
  match l with [] => 0%Q | a :: l' => (f a + sum_over f l')%Q end.
(** The label of a drawn outcome. *)
Definition label_of (crit dh : bool) : string :=
  match crit, dh with
  | false, false => "No crit, no DH" | true, false => "Crit, no DH" | false, true => "No crit, DH" | true, true => "Crit, DH"
  end.
Definition row_nonneg (r : row) : Prop :=
  (0 <= r_base r)%Q /\ (0 <= r_crit_bonus r)%Q /\ (0 <= r_trait r)%Q /\ (0 <= r_mult r)%Q.
(** Draws of [np.random.rand], which lie in [0, 1); and those other than 0. *)
Definition drawn (u : draws) : Prop := let '(a, b, c) := u in (0 <= a < 1 /\ 0 <= b < 1 /\ 0 <= c < 1)%Q.
Definition not_zero (u : draws) : Prop := let '(_, b, c) := u in (0 < b /\ 0 < c)%Q.

(** ** Whole simulations *)

(** An instance whose damage can be computed: it has damage of a known kind, no source
    contradicts another, tanks have tenacity, and autos of strength users a strength. *)
Definition computable (st : stats) (x : instance) : Prop :=
  exists d, get_damage_spec (di_skill x) (di_modifier x) = Ok (Some d)
    /\ damage_class d <> DC_UNKNOWN
    /\ (st_is_tank st = true -> st_tenacity st <> None)
    /\ (uses_strength st = true -> damage_class d = DC_AUTO -> st_healer_strength st <> None)
    /\ ~ contradictory (dh_sources d (di_modifier x) (di_effects x))
    /\ ~ contradictory (crit_sources d (di_modifier x) (di_effects x)).

(** Multipliers are not negative. *)
Definition mults_nonneg (x : instance) : Prop :=
  (0 <= ef_damage_mult (fst (di_effects x)))%Q /\ (0 <= ef_damage_mult (snd (di_effects x)))%Q
  /\ (forall d, get_damage_spec (di_skill x) (di_modifier x) = Ok (Some d) -> opt_nonneg (trait_damage_mult_override d)).
(** The draws behind the reported ranges, none of them 0. *)
Definition fair (u : nat -> nat -> draws) : Prop := forall i k, drawn (u i k) /\ not_zero (u i k).
