(** * Specification vocabulary for better gear in a whole rotation (C78) *)

From Coq Require Import ZArith QArith List String Bool.
From Verif Require Import Base Types Lookup Stats Library Events Rotation DamageBuild Damage KillTime SpecHit SpecGame SpecShuffle.
Import ListNotations.
Open Scope Z_scope.

(** The arguments of Stats that decide when things happen are the same. *)
Definition same_pace (g g' : gear) : Prop :=
  g_delay g' = g_delay g /\ g_speed g' = g_speed g /\ g_job g' = g_job g /\ g_version g' = g_version g /\ g_level g' = g_level g.

(** The damage instances a new DamageBuilder makes of a new builder and these calls. *)
Definition hits_with (st : stats) (lib : library) (snap : option Q) (autos trailing : bool) (start : option Z)
    (w : raw_windows) (target : string) (calls : list instr) : res (list instance) :=
  let* b := rb_init st lib snap autos trailing start w target in
  let* b1 := follow b calls in
  let* r := get_skill_timing b1 in
  let* tk := db_init st lib in
  let* (_, _, out) := get_damage_instances tk (b_queue r) in
  Ok out.

(** No number of a hit is negative: multipliers, rate additions, potency. *)
Definition sane_hit (x : instance) : Prop :=
  mults_nonneg x /\ effects_nonneg (fst (di_effects x)) /\ effects_nonneg (snd (di_effects x))
  /\ forall d, get_damage_spec (di_skill x) (di_modifier x) = Ok (Some d) -> spec_nonneg d.
(** Its rates are probabilities. *)
Definition unit_rates (st : stats) (x : instance) : Prop :=
  forall d dh crit bonus, get_damage_spec (di_skill x) (di_modifier x) = Ok (Some d) ->
    crit_rates_and_bonuses st d (di_modifier x) (di_effects x) = Ok (dh, crit, bonus) -> in_unit crit /\ in_unit dh.

(** No skill of the library has a negative number (as in C55). *)
Definition sane_skill (s : skill) : Prop := forall p, part_of p s ->
  (forall d, In d (damages_of p) -> sane_damage d) /\ (forall e, In e (effects_of p) -> sane_effect e).
Definition sane_library (lib : library) : Prop := forall n j s, get_skill lib n j = Ok s -> sane_skill s.

(** [None] is infinite. *)
Definition dps_le (a b : option Q) : Prop :=
  match a, b with Some x, Some y => (x <= y)%Q | None, None => True | _, _ => False end.

(** A new builder after these calls, before [get_skill_timing]. *)
Definition rotation_with (st : stats) (lib : library) (snap : option Q) (autos trailing : bool) (start : option Z)
    (w : raw_windows) (target : string) (calls : list instr) : res builder :=
  let* b := rb_init st lib snap autos trailing start w target in follow b calls.
(** All its hits are sane. *)
Definition sane_rotation (b : builder) : Prop := forall tk r tk' qu hits,
  db_init (b_stats b) (b_library b) = Ok tk -> get_skill_timing b = Ok r ->
  get_damage_instances tk (b_queue r) = Ok (tk', qu, hits) -> Forall sane_hit hits.
(** The same calls and luck with better gear of the same pace. *)
Definition regeared (x y : builder * rotation_draws) : Prop :=
  snd y = snd x
  /\ exists g g' st st' lib snap autos trailing start w target calls,
       gear_nonneg g /\ better g g' /\ same_pace g g' /\ sane_library lib /\ stats_of g = Ok st /\ stats_of g' = Ok st'
       /\ rotation_with st lib snap autos trailing start w target calls = Ok (fst x)
       /\ rotation_with st' lib snap autos trailing start w target calls = Ok (fst y).
