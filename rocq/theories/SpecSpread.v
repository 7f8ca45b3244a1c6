(** * Specification vocabulary for skills that hit more enemies (C82) *)

From Coq Require Import ZArith List String Bool Permutation.
From Verif Require Import Base Types Events DamageBuild.
Import ListNotations.
Open Scope Z_scope.

(** The same event on further targets. *)
Definition also_on (e : event) (extra : list string) : event :=
  mkEvent (ev_priority e) (ev_primary e) (ev_secondary e) (ev_skill e) (ev_modifier e) (ev_snap e)
    (ev_targets e ++ extra) (ev_id e) (ev_jr_added e) (ev_jr_cond e) (ev_combo_cond e).

(** [e'] is [e], possibly on newcomers as well.  Only events that [may] gain newcomers do, and
    only if they hit at least two already: skills know whether they hit one enemy or several. *)
Definition joined (may : event -> Prop) (newcomer : string -> bool) (e e' : event) : Prop :=
  exists extra, e' = also_on e extra
    /\ Forall (fun x => newcomer x = false) (ev_targets e) /\ Forall (fun x => newcomer x = true) extra
    /\ (extra <> [] -> may e /\ (2 <= List.length (ev_targets e))%nat).
(** Two timelines that differ in this way, whatever the order in which they are stored. *)
Definition newcomers_join (may : event -> Prop) (newcomer : string -> bool) (l l' : list event) : Prop :=
  exists m, Permutation l' m /\ Forall2 (joined may newcomer) l m.

(** Snapshot and application in one. *)
Definition at_once (e : event) : Prop := ev_secondary e = None.

(** The damage that newcomers do not take. *)
Definition without (newcomer : string -> bool) (l : list instance) : list instance :=
  filter (fun i => negb (newcomer (di_target i))) l.
