(** * simulator/timeline_builders/snapshot_and_application_events.py *)

From Coq Require Import ZArith QArith List String Bool.
From Verif Require Import Base Heap Strings Types Lookup.
Import ListNotations.
Open Scope string_scope.
Open Scope Z_scope.

(** One element of the [snapshot_status] list of an event: a flag telling whether
    to take the snapshot at the event's first time, or the effects already
    snapshotted (damage_builder.py lines 90-94 and 132-136). *)
Inductive snap := SFlag (b : bool) | SEff (e : status_effects).

(** Lines 9 and 23-38.  Times are integers (ms). *)
Record event := mkEvent {
  ev_priority : Z;
  ev_primary : Z;
  ev_secondary : option Z;
  ev_skill : skill;
  ev_modifier : modifier;
  ev_snap : snap * snap;
  ev_targets : list string;
  ev_id : Z;
  ev_jr_added : bool;
  ev_jr_cond : bool;
  ev_combo_cond : bool
}.

(** Lines 40-41: [(priority, skill.name) < (priority, skill.name)] *)
Definition event_ltb (a b : event) : bool :=
  (ev_priority a <? ev_priority b)
  || (ev_priority a =? ev_priority b) && str_ltb (sk_name (ev_skill a)) (sk_name (ev_skill b)).
Definition event_lt (a b : event) : res bool := Ok (event_ltb a b).

(** Lines 43-46 *)
Record queue := mkQueue { q_heap : list event; q_next_id : Z }.
Definition q_init : queue := mkQueue [] 0.

(** Lines 97-100 *)
Definition opt_is (o : option Z) (z : Z) : bool :=
  match o with Some x => x =? z | None => false end.

(** Lines 79-116 *)
Definition q_add (qu : queue) (priority primary : Z) (secondary : option Z) (s : skill)
    (m : modifier) (sn : snap * snap) (id : option Z) (jra jrc cc : bool) (targets : list string)
  : res queue :=
  let '(eid, next) := match id with
                      | None => (q_next_id qu, q_next_id qu + 1)
                      | Some i => (i, q_next_id qu)
                      end in
  let same := opt_is secondary primary in
  let ev := mkEvent priority primary (if same then None else secondary) s m
              (if same then (SFlag true, SFlag true) else sn) targets eid jra jrc cc in
  let* h := heappush event_lt (q_heap qu) ev in
  Ok (mkQueue h next).

(** [add(priority, primary, secondary, skill, modifier, snapshot, targets=targets)] *)
Definition q_add_new (qu : queue) (priority primary : Z) (secondary : option Z) (s : skill)
    (m : modifier) (sn : snap * snap) (targets : list string) : res queue :=
  q_add qu priority primary secondary s m sn None false false false targets.

(** The time at which the event takes effect (lines 123-127, 138-142). *)
Definition ev_time (e : event) : Z :=
  match ev_secondary e with None => ev_primary e | Some t => t end.

(** Lines 118-133 *)
Definition first_damage_step (acc : option Z) (e : event) : res (option Z) :=
  let* d := get_damage_spec (ev_skill e) (ev_modifier e) in
  Ok (match d with
      | None => acc
      | Some _ => Some (match acc with None => ev_time e | Some t => Z.min (ev_time e) t end)
      end).
Definition get_first_damage_time (qu : queue) : res (option Z) :=
  foldM first_damage_step (q_heap qu) None.

(** Lines 135-148 *)
Definition get_last_event_time (qu : queue) : option Z :=
  fold_left (fun acc e => Some (match acc with None => ev_time e | Some t => Z.max (ev_time e) t end))
    (q_heap qu) None.

(** Lines 150-152 *)
Definition q_clear (qu : queue) : queue := q_init.
(** Lines 154-155 *)
Definition q_is_empty (qu : queue) : bool := match q_heap qu with [] => true | _ => false end.
(** Lines 157-158 *)
Definition q_get_next (qu : queue) : res (event * queue) :=
  let* (e, h) := heappop event_lt (q_heap qu) in Ok (e, mkQueue h (q_next_id qu)).
(** Lines 160-163 *)
Definition get_q (qu : queue) : list event := sort_lt event_ltb (q_heap qu).

(** The loop [while not q.is_empty(): e = q.get_next()]: events in pop order. *)
Definition q_drain (qu : queue) : res (list event) :=
  drain event_lt (List.length (q_heap qu)) (q_heap qu).
