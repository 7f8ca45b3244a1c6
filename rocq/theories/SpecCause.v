(** * Specification vocabulary for damage and what comes later (C72) *)

From Coq Require Import ZArith QArith List String Bool Permutation.
From Verif Require Import Base Float Types Lookup Stats Library Events Rotation DamageBuild SpecPlay SpecTimeline SpecRun.
Import ListNotations.
Open Scope Z_scope.

(** Damage before [t]. *)
Definition hits_before (t : Z) (l : list instance) : list instance := filter (fun i => di_time i <? t) l.
(** Events whose first time is before [t]. *)
Definition begun_before (t : Z) (l : list event) : list event := filter (fun e => ev_primary e <? t) l.

(** When an event is due and in which order among those of the same time: its first time,
    and its application if that is another. *)
Definition places (e : event) : list (Z * string) :=
  (ev_priority e, sk_name (ev_skill e))
  :: match ev_secondary e with
     | None => []
     | Some app => [(1000 * app + (1000 * ev_primary e - ev_priority e), sk_name (ev_skill e))]
     end.
(** No two things are due at the same place. *)
Definition distinct_places (l : list event) : Prop := NoDup (flat_map places l).

(** Priorities are 1000 per ms and less than half a ms off; nothing applies before its
    snapshot; what applies later than its snapshot has one target. *)
Definition orderly (e : event) : Prop :=
  -500 < ev_priority e - 1000 * ev_primary e < 500
  /\ forall app, ev_secondary e = Some app -> ev_primary e <= app /\ List.length (ev_targets e) = 1%nat.

(** None of the rotation's skills has a damage-over-time effect, or 500 follow-ups. *)
Definition no_dots (b : builder) : Prop :=
  forall s m fus fu, In s (skills_of b) -> get_follow_up_skills s m = Ok fus -> In fu fus -> fu_dot fu = None.
Definition few_follow_ups (b : builder) : Prop :=
  forall s m fus, In s (skills_of b) -> get_follow_up_skills s m = Ok fus -> (List.length fus < 500)%nat.
(** What takes effect later than its snapshot has one target. *)
Definition delayed_single (l : list event) : Prop :=
  forall e, In e l -> ev_secondary e <> None -> List.length (ev_targets e) = 1%nat.
