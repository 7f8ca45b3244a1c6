(** * Specification vocabulary for further attacks (C87) *)

From Coq Require Import ZArith QArith List String Bool Permutation.
From Verif Require Import Base Types Lookup Library Stats Events Rotation DamageBuild SpecGame SpecTimeline SpecRun SpecCause SpecAuto SpecIdle.
Import ListNotations.
Open Scope Z_scope.

(** A hit up to the id of its event. *)
Definition unnumbered (i : instance) : instance := mkInst (di_time i) (di_skill i) (di_modifier i) (di_effects i) 0 (di_target i).

(** [l'] has, besides the events of [l], the events [more]; ids may differ. *)
Definition joined_by (more l l' : list event) : Prop := Permutation (map anon l') (map anon (more ++ l)).
(** The same of hits: the further ones are of skills of [more]. *)
Definition further_hits (more : list event) (l l' : list instance) : Prop :=
  exists own, Permutation (map unnumbered l') (map unnumbered (own ++ l)) /\ forall i, In i own -> exists e, In e more /\ di_skill i = ev_skill e.

(** Neither the effects of the events [l] nor the job's resources count uses of the skills of [more]. *)
Definition uncounted_by (lib : library) (st : stats) (more l : list event) : Prop :=
  forall e, In e more ->
    (forall e' sp, In e' l -> In sp (effects_of (ev_skill e')) -> uses_apart (sk_name (ev_skill e)) sp)
    /\ (forall rs n cfg, get_all_resource_settings lib (st_job st) = Ok rs -> In (n, cfg) rs -> ~ In (sk_name (ev_skill e)) (jrs_allowlist cfg)).

(** The delay between autos is never negative in this rotation, or at least the fight's start is given. *)
Definition timely (b : builder) : Prop :=
  b_fight_start b <> None
  \/ forall evs t au buffs debuffs,
       (forall e, In e evs -> auto_skill b (ev_skill e) \/ exists s, In s (skills_of b) /\ part_of (ev_skill e) s) ->
       auto_effects b evs t au buffs debuffs -> 0 <= hasted_delay (b_stats b) buffs debuffs.
(** The job's auto attack grants nothing, nothing in the rotation counts autos, and autos do not apply before they are due. *)
Definition plain_autos (b : builder) : Prop :=
  forall au, auto_skill b au -> grants_nothing au /\ uncounted b (sk_name au) /\ forall spec, sk_timing au = COne spec -> 0 <= application_delay spec.
