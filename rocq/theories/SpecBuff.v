(** * Specification vocabulary for further buffs (C86) *)

From Coq Require Import ZArith QArith List String Bool Permutation.
From Verif Require Import Base Types Lookup Library Stats Events Rotation DamageBuild Damage SpecHit SpecGame SpecRun SpecReplay SpecShuffle SpecTimeline SpecCause SpecIdle.
Import ListNotations.
Open Scope Z_scope.

(** An effect that only helps: more damage, crits, direct hits or main stat; it neither
    forces nor forbids, changes no speed, adds no condition and ends no other effect. *)
Definition supportive (e : status_spec) : Prop :=
  (0 <= crit_rate_add e /\ 0 <= dh_rate_add e /\ 1 <= damage_mult e /\ 0 <= main_stat_add e)%Q
  /\ main_stat_mult e = 1%Q /\ auto_attack_delay_reduction e = 0%Q /\ haste_time_reduction e = 0%Q
  /\ flat_cast_time_reduction e = Fin 0 /\ flat_gcd_recast_time_reduction e = 0
  /\ se_crit e = F_DEFAULT /\ se_dh e = F_DEFAULT /\ add_to_skill_modifier_condition e = false
  /\ expires_status_effects e = [] /\ clear_all_status_effects e = false.

(** A skill that does nothing but grant such effects. *)
Definition support (s : skill) : Prop :=
  (forall m, get_damage_spec s m = Ok None /\ get_follow_up_skills s m = Ok [] /\ get_combo_spec s m = Ok [] /\ get_job_resource_spec s m = Ok [])
  /\ forall e, In e (effects_of s) -> supportive e.

(** [l'] has, besides the events of [l], events of support skills, which bear the [extra]
    names; the others do not.  Ids may differ. *)
Definition supported (extra : string -> bool) (l l' : list event) : Prop :=
  exists more, Permutation (map anon l') (map anon (more ++ l))
    /\ Forall (fun e => extra (sk_name (ev_skill e)) = true /\ support (ev_skill e) /\ orderly e) more
    /\ Forall (fun e => extra (sk_name (ev_skill e)) = false) l.

(** Nothing in the fight counts or ranks the extra names: other effects have unlimited uses
    or are not for them, no resource is, and no priority mentions them.  No other effect has
    a negative multiplier. *)
Definition indifferent (extra : string -> bool) (lib : library) (st : stats) (l : list event) : Prop :=
  (forall e sp, In e l -> In sp (effects_of (ev_skill e)) ->
     (0 <= damage_mult sp)%Q /\ forall n, extra n = true -> uses_apart n sp)
  /\ (forall p n, get_status_effect_priority lib (st_job st) = Ok p -> In n p -> extra n = false)
  /\ (forall rs n cfg a, get_all_resource_settings lib (st_job st) = Ok rs -> In (n, cfg) rs -> In a (jrs_allowlist cfg) -> extra a = false).

(** Effects that help at least as much. *)
Definition boosted (e e' : status_effects) : Prop :=
  (ef_crit_rate_add e <= ef_crit_rate_add e' /\ ef_dh_rate_add e <= ef_dh_rate_add e'
   /\ ef_damage_mult e <= ef_damage_mult e' /\ ef_main_stat_add e <= ef_main_stat_add e')%Q
  /\ ef_main_stat_mult e' = ef_main_stat_mult e /\ ef_auto_delay_mult e' = ef_auto_delay_mult e /\ ef_haste_mult e' = ef_haste_mult e
  /\ ef_flat_cast e' = ef_flat_cast e /\ ef_flat_gcd e' = ef_flat_gcd e /\ ef_crit e' = ef_crit e /\ ef_dh e' = ef_dh e.

(** The same hit, up to its id, with effects that help at least as much. *)
Definition boosted_hit (x x' : instance) : Prop :=
  di_time x' = di_time x /\ di_skill x' = di_skill x /\ di_modifier x' = di_modifier x /\ di_target x' = di_target x
  /\ boosted (fst (di_effects x)) (fst (di_effects x')) /\ boosted (snd (di_effects x)) (snd (di_effects x')).
(** Lists of hits, in any order. *)
Definition boosted_hits (l l' : list instance) : Prop :=
  exists a a', Permutation l a /\ Permutation l' a' /\ Forall2 boosted_hit a a'.

(** The calls without the timed presses of extra skills. *)
Definition unsupported (extra : string -> bool) (b : builder) (l : list instr) : list instr :=
  filter (fun i => match i with
                   | PressAt _ c => match get_skill (b_library b) (c_name c) (match c_job c with Some j => j | None => st_job (b_stats b) end) with
                                    | Ok s => negb (extra (sk_name s)) | Err _ => true end
                   | NextPress _ _ => true
                   end) l.
(** The extra skills of a rotation are support skills, pressed at set times; the other skills and
    their follow-ups bear other names, and have no effect with a negative multiplier. *)
Definition only_support (extra : string -> bool) (b : builder) : Prop :=
  (forall x, In x (b_sequence b) -> extra (sk_name (sq_skill x)) = false)
  /\ (forall s, In s (skills_of b) -> extra (sk_name s) = true -> support s)
  /\ (forall s p, In s (skills_of b) -> extra (sk_name s) = false -> part_of p s ->
        extra (sk_name p) = false /\ forall e, In e (effects_of p) -> (0 <= damage_mult e)%Q).
(** No effect of the other skills, and no resource, counts them. *)
Definition uncounting (extra : string -> bool) (b : builder) : Prop :=
  (forall s p e n, In s (skills_of b) -> extra (sk_name s) = false -> part_of p s -> In e (effects_of p) -> extra n = true -> uses_apart n e)
  /\ (forall rs n cfg a, get_all_resource_settings (b_library b) (st_job (b_stats b)) = Ok rs -> In (n, cfg) rs -> In a (jrs_allowlist cfg) -> extra a = false).
(** The job's priority of effects does not rank them. *)
Definition unranking (extra : string -> bool) (b : builder) : Prop :=
  forall p n, get_status_effect_priority (b_library b) (st_job (b_stats b)) = Ok p -> In n p -> extra n = false.
Definition with_support (extra : string -> bool) (b : builder) : Prop := only_support extra b /\ uncounting extra b /\ unranking extra b.

(** The same skill hits the same target at the same time. *)
Definition same_place (x x' : instance) : Prop := di_time x' = di_time x /\ di_skill x' = di_skill x /\ di_target x' = di_target x.

(** The buffs that the shipped libraries have for the party, and some that only help their owner. *)
Definition shipped_buffs : list string :=
  ["Battle Litany"; "Brotherhood"; "Arcane Circle"; "Embolden"; "Searing Light"; "Battle Voice"; "Devilment"; "Divination"; "Chain Stratagem";
   "Card"; "Left Eye"; "Dragon Sight"; "No Mercy"; "Fight or Flight"; "Raging Strikes"; "Lance Charge"; "Riddle of Fire"]%string.
