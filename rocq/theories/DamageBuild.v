(** * simulator/timeline_builders/damage_builder.py *)

From Coq Require Import ZArith QArith List String Bool.
From Verif Require Import Base Heap Strings Types Lookup StatusEffect JobResource Combo Stats
  Library Events Rotation.
Import ListNotations.
Open Scope string_scope.
Open Scope Z_scope.

(** The tuples pushed on [q], lines 122-129: (time, skill, modifier, (buffs,
    debuffs), event id, target). *)
Record instance := mkInst {
  di_time : Z;
  di_skill : skill;
  di_modifier : modifier;
  di_effects : status_effects * status_effects;
  di_id : Z;
  di_target : string
}.

(** [<] on these tuples.  StatusEffects has no [<]; for skills and modifiers see
    [timed_lt] in Rotation.v. *)
Definition inst_lt (a b : instance) : res bool :=
  if negb (di_time a =? di_time b) then Ok (di_time a <? di_time b)
  else if negb (String.eqb (sk_name (di_skill a)) (sk_name (di_skill b)))
  then Ok (str_ltb (sk_name (di_skill a)) (sk_name (di_skill b)))
  else if negb (skill_eqb (di_skill a) (di_skill b)) then Err Unmodelled
  else if negb (modifier_eqb (di_modifier a) (di_modifier b)) then Ok false
  else if negb (effects_eqb (fst (di_effects a)) (fst (di_effects b))
                && effects_eqb (snd (di_effects a)) (snd (di_effects b))) then Err TypeError
  else if negb (di_id a =? di_id b) then Ok (di_id a <? di_id b)
  else Ok (str_ltb (di_target a) (di_target b)).

(** Lines 21-33: the builder is its three trackers (priority, stats and library
    are only used here). *)
Definition db_init (st : stats) (lib : library) : res trackers :=
  let* prio := get_status_effect_priority lib (st_job st) in
  new_trackers lib (st_job st) prio.

(** Lines 78-88 (= 157-167): combo, then positional; [processed] skips both. *)
Definition combo_and_positional (tk : trackers) (t : Z) (s : skill) (m : modifier) (processed : bool)
  : res (trackers * modifier) :=
  if processed then Ok (tk, m)
  else
    let* (ct, c) := compile_and_update_combo (tk_combo tk) t s m in
    let* m' := add_positional s (add_to_condition m c) in
    Ok (mkTrackers (tk_se tk) (tk_jr tk) ct, m').

(** Lines 65-71 (= 147-154): job resource conditional. *)
Definition resource_conditional (tk : trackers) (t : Z) (s : skill) (m : modifier) (skip : bool)
  : trackers * modifier :=
  if skip then (tk, m)
  else
    let (jr, c) := compile_job_resources (tk_jr tk) t (sk_name s) in
    (mkTrackers (tk_se tk) jr (tk_combo tk), add_to_condition m c).

(** Lines 73-76 (= 170-173) *)
Definition resources_added (tk : trackers) (t : Z) (s : skill) (m : modifier) (skip : bool) : res trackers :=
  if skip then Ok tk
  else let* jr := add_resource (tk_jr tk) t s m in Ok (mkTrackers (tk_se tk) jr (tk_combo tk)).

(** Lines 97-99 (= 176-178): with several targets each gets its own condition. *)
Definition target_modifier (n : nat) (m : modifier) (i : Z) : modifier :=
  if (1 <? Z.of_nat n) then add_to_condition m ("Target " ++ string_of_Z (i + 1)) else m.
(** Lines 101-109 (= 180-189) *)
Definition target_time (n : nat) (t i : Z) : Z :=
  if (1 <? Z.of_nat n) then t + i * MULTI_TARGET_DELAY_PER_TARGET else t.

(** Lines 96-130: one target at application.  State: (tracker, output heap,
    modifier of the last iteration). *)
Definition apply_target (n : nat) (t : Z) (s : skill) (m : modifier) (buffs : status_effects)
    (sn1 : snap) (id : Z) (st : se_tracker * list instance * modifier) (it : Z * string)
  : res (se_tracker * list instance * modifier) :=
  let '(se, out, _) := st in
  let (i, target) := it in
  let m0 := target_modifier n m i in
  let* (se', debuffs, m1) :=
    match sn1 with
    | SEff e => Ok (se, e, m0)
    | SFlag _ =>
        let* (se', (e, c)) := compile_debuffs se t s target in
        Ok (se', e, add_to_condition m0 c)
    end in
  let* d := get_damage_spec s m1 in
  match d with
  | None => Ok (se', out, m1)
  | Some _ =>
      let* out' := heappush inst_lt out (mkInst (target_time n t i) s m1 (buffs, debuffs) id target) in
      Ok (se', out', m1)
  end.

(** Lines 64-130 and 213-214: an event at its application time.  With one target,
    [skill_modifier_to_use] is [skill_modifier] itself, so the debuff conditions
    are also seen by [add_to_status_effects]. *)
Definition application_event (tk : trackers) (out : list instance) (e : event)
  : res (trackers * list instance) :=
  let t := ev_primary e in
  let s := ev_skill e in
  let (tk1, m1) := resource_conditional tk t s (ev_modifier e) (ev_jr_cond e) in
  let* tk2 := resources_added tk1 t s m1 (ev_jr_added e) in
  let* (tk3, m2) := combo_and_positional tk2 t s m1 (ev_combo_cond e) in
  let* (se1, buffs, m3) :=
    match fst (ev_snap e) with
    | SEff b => Ok (tk_se tk3, b, m2)
    | SFlag _ =>
        let* (se', (b, c)) := compile_buffs (tk_se tk3) t s in
        Ok (se', b, add_to_condition m2 c)
    end in
  let n := List.length (ev_targets e) in
  let* (se2, out', m4) :=
    foldM (apply_target n t s m3 buffs (snd (ev_snap e)) (ev_id e)) (enumerate (ev_targets e))
      (se1, out, m3) in
  let* se3 := add_to_status_effects se2 t s (if Nat.eqb n 1 then m4 else m3) (ev_targets e) in
  Ok (mkTrackers se3 (tk_jr tk3) (tk_combo tk3), out').

(** Lines 175-210: one target at snapshot time. *)
Definition snapshot_target (n : nat) (t : Z) (app : Z) (priority : Z) (s : skill) (m : modifier)
    (sn : snap * snap) (id : Z) (jrc cc : bool) (st : se_tracker * queue) (it : Z * string)
  : res (se_tracker * queue) :=
  let (se, qu) := st in
  let (i, target) := it in
  let m0 := target_modifier n m i in
  let* (se', sn1, m1) :=
    match snd sn with
    | SFlag true =>
        let* (se', (e, c)) := compile_debuffs se t s target in
        Ok (se', SEff e, add_to_condition m0 c)
    | x => Ok (se, x, m0)
    end in
  let* qu' := q_add qu priority (target_time n app i) None s m1 (fst sn, sn1) (Some id) true jrc cc
                [target] in
  Ok (se', qu').

(** Lines 131-210: an event at its snapshot time. *)
Definition snapshot_event (tk : trackers) (qu : queue) (e : event) (app : Z)
  : res (trackers * queue) :=
  let t := ev_primary e in
  let s := ev_skill e in
  let* (se1, sn0, m1) :=
    match fst (ev_snap e) with
    | SFlag true =>
        let* (se', (b, c)) := compile_buffs (tk_se tk) t s in
        Ok (se', SEff b, add_to_condition (ev_modifier e) c)
    | x => Ok (tk_se tk, x, ev_modifier e)
    end in
  let tk1 := mkTrackers se1 (tk_jr tk) (tk_combo tk) in
  let new_priority := time_to_prio app + (time_to_prio t - ev_priority e) in
  let skip := ev_jr_cond e || negb (sk_job_resources_snapshot s) in
  let (tk2, m2) := resource_conditional tk1 t s m1 skip in
  let* (tk3, m3) := combo_and_positional tk2 t s m2 (ev_combo_cond e) in
  let* tk4 := resources_added tk3 t s m3 (ev_jr_added e) in
  let* (se2, qu') :=
    foldM (snapshot_target (List.length (ev_targets e)) t app new_priority s m3 (sn0, snd (ev_snap e))
             (ev_id e) (negb skip) (negb (ev_combo_cond e)))
      (enumerate (ev_targets e)) (tk_se tk4, qu) in
  Ok (mkTrackers se2 (tk_jr tk4) (tk_combo tk4), qu').

(** Lines 46-214: one iteration of the loop, on an event just popped. *)
Definition damage_step (tk : trackers) (qu : queue) (out : list instance) (e : event)
  : res (trackers * queue * list instance) :=
  let tk0 := mkTrackers (expire_status_effects (ev_primary e) (tk_se tk)) (tk_jr tk) (tk_combo tk) in
  match ev_secondary e with
  | None => let* (tk', out') := application_event tk0 out e in Ok (tk', qu, out')
  | Some app => let* (tk', qu') := snapshot_event tk0 qu e app in Ok (tk', qu', out)
  end.

Fixpoint damage_loop (fuel : nat) (tk : trackers) (qu : queue) (out : list instance)
  : res (trackers * queue * list instance) :=
  if q_is_empty qu then Ok (tk, qu, out)
  else
    match fuel with
    | O => Err OutOfFuel
    | S fuel' =>
        let* (e, qu1) := q_get_next qu in
        let* (tk', qu2, out') := damage_step tk qu1 out e in
        damage_loop fuel' tk' qu2 out'
    end.

(** A snapshot event is replaced by one application event per target. *)
Definition event_weight (e : event) : nat :=
  match ev_secondary e with None => 1 | Some _ => S (List.length (ev_targets e)) end.
Definition damage_fuel (qu : queue) : nat :=
  fold_right (fun e n => (event_weight e + n)%nat) 0%nat (q_heap qu).

(** Lines 41-217: the trackers (which persist between calls), the emptied queue and
    the sorted damage instances. *)
Definition get_damage_instances (tk : trackers) (qu : queue) : res (trackers * queue * list instance) :=
  let* (tk', qu', out) := damage_loop (damage_fuel qu) tk qu [] in
  Ok (tk', qu', sort_by di_time out).
