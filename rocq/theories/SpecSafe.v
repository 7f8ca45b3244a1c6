(** * Specification vocabulary: rotations that can be built (C63, C64) *)

From Coq Require Import ZArith QArith List String Bool.
From Verif Require Import Base Float Types Lookup Stats Library Events Rotation SpecTimeline SpecGame SpecRun SpecAuto
  SpecHit GameLib.
Import ListNotations.
Open Scope string_scope.
Open Scope Z_scope.

(** Nothing a rotation asks of this part of a skill raises, given the job resources
    the job declares. *)
Definition usable_part (resources : list string) (p : skill) : Prop :=
  (forall m, NoDup (sm_cond m) -> all_lookups_succeed p m /\ exists f, get_follow_up_skills p m = Ok f)
  /\ (forall c, In c (changes_of p) -> jr_clear_all c = true \/ In (jr_name c) resources).
(** The skill can be pressed. *)
Definition usable (resources : list string) (s : skill) : Prop :=
  (forall m, NoDup (sm_cond m) -> exists t, get_timing_spec s m = Ok (Some t))
  /\ forall p, part_of p s -> usable_part resources p.

(** A press under this modifier: the logged bonus, if any, is one the positional
    inference accepts. *)
Definition usable_modifier (s : skill) (m : modifier) : Prop :=
  NoDup (sm_cond m)
  /\ forall m', NoDup (sm_cond m') -> sm_bonus_percent m' = sm_bonus_percent m -> exists r, add_positional s m' = Ok r.

(** The effect decides whether hits are crits or direct hits. *)
Definition forces (e : status_spec) : Prop := se_crit e <> F_DEFAULT \/ se_dh e <> F_DEFAULT.
(** No two different effects of these skills decide it for one skill. *)
Definition never_both_force (skills : skill -> Prop) : Prop :=
  forall s s' p p' e e' n,
    skills s -> skills s' -> part_of p s -> part_of p' s' ->
    In e (effects_of p) -> In e' (effects_of p') -> forces e -> forces e' -> allows e n -> allows e' n ->
    sk_name p = sk_name p'.

(** The skills a run can use. *)
Definition run_skill (b : builder) (s : skill) : Prop :=
  In s (skills_of b) \/ (b_autos b = true /\ auto_skill b s).

(** Pressing two skills at one time compares them by name and then by value. *)
Definition comparable (b : builder) : Prop :=
  forall x y, In x (b_timed b) -> In y (b_timed b) -> sk_name (tm_skill x) = sk_name (tm_skill y) ->
    skill_eqb (tm_skill x) (tm_skill y) = true.

(** Everything the rotation presses can be pressed. *)
Definition pressable (b : builder) : Prop :=
  exists settings,
    get_all_resource_settings (b_library b) (st_job (b_stats b)) = Ok settings
    /\ (exists br, get_all_combo_breakers (b_library b) (st_job (b_stats b)) = Ok br)
    /\ (exists c, get_consts (st_version (b_stats b)) (st_level (b_stats b)) = Ok c)
    /\ (forall s, run_skill b s -> usable (map fst settings) s)
    /\ never_both_force (run_skill b)
    /\ (forall x, In x (b_sequence b) -> usable_modifier (sq_skill x) (sq_modifier x))
    /\ (forall x, In x (b_timed b) -> usable_modifier (tm_skill x) (tm_modifier x))
    /\ comparable b.

(** What auto attacks need besides: something to follow, something to hit with and
    windows that end at whole milliseconds. *)
Definition deals_damage (s : skill) : Prop :=
  forall m, NoDup (sm_cond m) -> exists d, get_damage_spec s m = Ok (Some d).
Definition autos_possible (b : builder) : Prop :=
  (exists s, In s (skills_of b) /\ deals_damage s)
  /\ (exists au ts, auto_skill b au /\ sk_timing au = COne ts)
  /\ (forall target w, In w (windows_of b target) -> exists z, (w_end w == inject_Z z)%Q)
  /\ (forall au evs t buffs debuffs, auto_skill b au ->
        (forall e, In e evs -> NoDup (sm_cond (ev_modifier e)) /\ exists s, run_skill b s /\ part_of (ev_skill e) s) ->
        auto_effects b evs t au buffs debuffs -> 10 <= hasted_delay (b_stats b) buffs debuffs).

(** ** Rotations of shipped skills (C64) *)

Definition shipped_rotation (v : string) (lv : Z) (b : builder) : Prop :=
  create_skill_library v lv = Ok (b_library b)
  /\ (exists g, stats_of g = Ok (b_stats b)) /\ In (st_job (b_stats b)) (get_jobs (b_library b))
  (* skills of the own job, or ones that touch no job resource *)
  /\ (forall s, In s (skills_of b) ->
        (exists n, get_skill (b_library b) n (st_job (b_stats b)) = Ok s)
        \/ forall p c, part_of p s -> In c (changes_of p) -> jr_clear_all c = true)
  (* see C54 *)
  /\ (forall s p, In s (skills_of b) -> part_of p s -> sk_name p <> "Automaton Queen")
  (* conditions are sets *)
  /\ (forall x, In x (b_sequence b) -> NoDup (sm_cond (sq_modifier x)))
  /\ (forall x, In x (b_timed b) -> NoDup (sm_cond (tm_modifier x)))
  (* not the skills of one name of two jobs *)
  /\ (forall x y, In x (b_timed b) -> In y (b_timed b) -> sk_name (tm_skill x) = sk_name (tm_skill y) -> tm_skill x = tm_skill y).
(** What auto attacks need besides. *)
Definition shipped_autos (v : string) (b : builder) : Prop :=
  (exists s, In s (skills_of b) /\ deals_damage s)
  /\ (1 <= st_weapon_delay (b_stats b))%Q
  /\ (forall target w, In w (windows_of b target) -> exists z, (w_end w == inject_Z z)%Q)
  (* see C53 *)
  /\ (st_job (b_stats b) = "VPR" -> ~ between "7.01" v "7.05").
