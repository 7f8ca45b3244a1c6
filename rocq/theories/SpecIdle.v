(** * Specification vocabulary for presses that do nothing (C75) *)

From Coq Require Import ZArith QArith List String Bool Permutation.
From Verif Require Import Base Float Types Lookup JobResource Stats Library Events Rotation SpecGame SpecPlay SpecTimeline SpecRun SpecReplay SpecShuffle.
Import ListNotations.
Open Scope Z_scope.

(** A skill without damage, effects, follow-ups, combos and resources. *)
Definition idle (s : skill) : Prop :=
  forall m, get_damage_spec s m = Ok None /\ get_buff_spec s m = Ok None /\ get_debuff_spec s m = Ok None
    /\ get_follow_up_skills s m = Ok [] /\ get_combo_spec s m = Ok [] /\ get_job_resource_spec s m = Ok [].

(** The same, damage allowed. *)
Definition grants_nothing (s : skill) : Prop :=
  forall m, get_buff_spec s m = Ok None /\ get_debuff_spec s m = Ok None
    /\ get_follow_up_skills s m = Ok [] /\ get_combo_spec s m = Ok [] /\ get_job_resource_spec s m = Ok [].

(** Uses of the effect are not limited, or it is for some skills and not this one. *)
Definition uses_apart (name : string) (e : status_spec) : Prop :=
  (num_uses e = Inf /\ max_num_uses e = Inf) \/ exists l, se_allowlist e = Some l /\ ~ In name l.
(** Nothing in the rotation counts presses of the name. *)
Definition uncounted (b : builder) (name : string) : Prop :=
  (forall s p e, In s (skills_of b) -> part_of p s -> In e (SpecGame.effects_of p) -> uses_apart name e)
  /\ (forall rs n cfg, get_all_resource_settings (b_library b) (st_job (b_stats b)) = Ok rs -> In (n, cfg) rs ->
        ~ In name (jrs_allowlist cfg)).

(** [r] is [r'] with one more event and one more press, of [s]. *)
Definition one_more (s : skill) (r' r : builder) : Prop :=
  (exists e, ev_skill e = s /\ Permutation (timeline r) (e :: timeline r'))
  /\ (exists p before after, pr_name p = sk_name s
        /\ get_button_press_timing r = (before ++ p :: after)%list /\ get_button_press_timing r' = (before ++ after)%list).

(** The same, the event possibly lost to downtime. *)
Definition at_most_one_more (s : skill) (r' r : builder) : Prop :=
  (exists more, (List.length more <= 1)%nat /\ Forall (fun e => ev_skill e = s) more /\ Permutation (timeline r) (more ++ timeline r'))
  /\ (exists p before after, pr_name p = sk_name s
        /\ get_button_press_timing r = (before ++ p :: after)%list /\ get_button_press_timing r' = (before ++ after)%list).

(** The [n]-th sequenced press is followed by none, or by a GCD that is later than the
    end of its lock: the GCD had to wait anyway. *)
Definition fits (b : builder) (n : nat) : Prop :=
  forall slog tlog p x, rotation_played b slog tlog -> nth_error slog n = Some p -> nth_error slog (S n) = Some x ->
    sk_is_GCD (pl_skill x) = true /\ pl_time p + busy p < pl_time x.
