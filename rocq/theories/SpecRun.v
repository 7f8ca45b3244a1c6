(** * Specification vocabulary for runs of [get_skill_timing] (C12-C21) *)

From Coq Require Import ZArith QArith List String Bool Permutation Sorted.
From Verif Require Import Base Float Types Lookup Stats Library Events Rotation SpecQueue SpecPlay SpecTimeline SpecDots SpecCond.
Import ListNotations.
Open Scope Z_scope.

(** ** Builders the API can produce *)

(** Before the first [get_skill_timing]. *)
Inductive built : builder -> Prop :=
| built_init st lib snap autos trailing start w target b :
    rb_init st lib snap autos trailing start w target = Ok b -> built b
| built_add b t name m job targets b' : built b -> add b t name m job targets = Ok b' -> built b'
| built_add_next b name m job n targets b' : built b -> add_next b name m job n targets = Ok b' -> built b'
| built_autos b x : built b -> built (set_enable_autos b x)
| built_trailing b x : built b -> built (set_ignore_trailing_dots b x).

(** At any time. *)
Inductive reachable : builder -> Prop :=
| reach_init st lib snap autos trailing start w target b :
    rb_init st lib snap autos trailing start w target = Ok b -> reachable b
| reach_add b t name m job targets b' : reachable b -> add b t name m job targets = Ok b' -> reachable b'
| reach_add_next b name m job n targets b' : reachable b -> add_next b name m job n targets = Ok b' -> reachable b'
| reach_autos b x : reachable b -> reachable (set_enable_autos b x)
| reach_trailing b x : reachable b -> reachable (set_ignore_trailing_dots b x)
| reach_run b b' : reachable b -> get_skill_timing b = Ok b' -> reachable b'.

(** ** What a run shows *)

(** The presses, reported by [get_button_press_timing], moved by [d]. *)
Definition shows_presses (b b' : builder) (log : list played) (d : Z) : Prop :=
  in_time_order (map (press_earlier d) (map (press_record (st_job (b_stats b))) log)) (get_button_press_timing b').

(** The timeline: the entries, moved by [d], without what happens in downtime. *)
Definition shows_timeline (b b' : builder) (entries : list add_call) (d : Z) : Prop :=
  exists evs, downtimed (windows_of b) (map (earlier d) (map entry entries)) evs /\ Permutation (timeline b') evs.

(** ** Damage over time *)

(** First tick of an application at [a], by server tick offset (in seconds). *)
Definition first_ticks (snap : option Q) (first : Z -> Z) : Prop :=
  match snap with
  | None => forall a, first a = a
  | Some s0 => forall o, (fmul 1000 s0 == inject_Z o)%Q -> Z.abs o <= 2 ^ 51 ->
                 forall a, Z.abs a <= 2 ^ 51 -> server_tick o a (first a)
  end.

(** Times small enough for doubles to be exact: about 71 000 years. *)
Definition small_times (snap : option Q) (l : list dot_application) : Prop :=
  snap = None \/ forall x, In x l -> Z.abs (app_time (snd x)) <= 2 ^ 51.

(** The same rotation and settings. *)
Definition trailing_set (b : builder) (x : bool) : builder := set_ignore_trailing_dots b x.

(** All animation locks (application delays) declared for the rotation's skills are
    non-negative. *)
Definition skills_of (b : builder) : list skill := map sq_skill (b_sequence b) ++ map tm_skill (b_timed b).
Definition nonneg_locks (b : builder) : Prop :=
  forall s m spec, In s (skills_of b) -> get_timing_spec s m = Ok (Some spec) -> 0 <= animation_lock spec.
Definition nonneg_delays (b : builder) : Prop :=
  forall s m spec, In s (skills_of b) -> get_timing_spec s m = Ok (Some spec) -> 0 <= application_delay spec.

(** [p] and [q] are consecutive GCDs of [log]. *)
Definition consecutive_gcds (log : list played) (p q : played) : Prop :=
  exists pre mid post, log = (pre ++ p :: mid ++ q :: post)%list
    /\ sk_is_GCD (pl_skill p) = true /\ sk_is_GCD (pl_skill q) = true
    /\ forall x, In x mid -> sk_is_GCD (pl_skill x) = false.

Definition no_windows (b : builder) : Prop := forall target, windows_of b target = [].

(** The press an [add] call asks for. *)
Definition asked_press (own_job : string) (x : timed) : press :=
  {| pr_time := tm_time x; pr_name := sk_name (tm_skill x);
     pr_job := if String.eqb (tm_job x) own_job then EmptyString else tm_job x;
     pr_cond := Strings.join "," (sm_cond (tm_modifier x)) |}.

(** Not later than [last]; a last event at 0 counts as none (see the refuted part of C18). *)
Definition not_after (last : Z) (e : event) : bool :=
  (last =? 0) || ((match ev_secondary e with Some t => t | None => ev_primary e end) <=? last).

(** ** Calls that add presses (C15, C42, C43) *)

(** The targets a target string names. *)
Definition targets_named (s : string) (tg : list string) : Prop :=
  exists parts, parts <> [] /\ s = String.concat "," parts
    /\ (forall p, In p parts -> SpecCond.comma_free p) /\ Forall2 SpecCond.trim_of parts tg.

(** Truncation toward zero. *)
Definition truncates (x : Q) (z : Z) : Prop :=
  ((0 <= x)%Q -> (inject_Z z <= x)%Q /\ (x < inject_Z (z + 1))%Q)
  /\ ((x < 0)%Q -> (inject_Z (z - 1) < x)%Q /\ (x <= inject_Z z)%Q).

(** What no [add] or [add_next] changes. *)
Definition same_settings (b b' : builder) : Prop :=
  b_stats b' = b_stats b /\ b_library b' = b_library b /\ b_snap_dots b' = b_snap_dots b
  /\ b_autos b' = b_autos b /\ b_ignore_trailing b' = b_ignore_trailing b
  /\ b_fight_start b' = b_fight_start b /\ b_windows b' = b_windows b
  /\ b_default_target b' = b_default_target b /\ b_priority b' = b_priority b.

(** The comma-separated conditions of a string. *)
Definition conditions_named (s : string) (cs : list string) : Prop :=
  NoDup cs
  /\ ((s = EmptyString /\ cs = [])
      \/ (s <> EmptyString /\ exists parts, parts <> [] /\ s = String.concat "," parts
            /\ (forall p, In p parts -> SpecCond.comma_free p)
            /\ forall x, In x cs <-> exists p, In p parts /\ SpecCond.trim_of p x)).
(** A modifier with nothing but conditions. *)
Definition only_conditions (m : modifier) : Prop :=
  sm_crit m = F_DEFAULT /\ sm_dh m = F_DEFAULT /\ sm_force_combo m = false /\ sm_ignore_cast_times m = false
  /\ sm_ignore_application_delay m = false /\ sm_bonus_percent m = None.
(** The modifier of a press without one: a skill of another job is used under the
    condition the skill names for that. *)
Definition default_for (b : builder) (s : skill) (job : string) (m : modifier) : Prop :=
  only_conditions m
  /\ ((job = st_job (b_stats b) /\ sm_cond m = [])
      \/ (job <> st_job (b_stats b) /\ conditions_named (sk_off_class_default s) (sm_cond m))).

(** [ticks] are the ticks of the recorded effects [l], those after [last] left out. *)
Definition ticks_delivered (server : option Q) (last : option Z) (l : list dot_application) (ticks : list add_call) : Prop :=
  exists first ks, first_ticks server first /\ effects_of l ks /\ all_ticks first last l ks ticks.
