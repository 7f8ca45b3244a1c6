(** * Specification vocabulary for whole timelines (C03, C15-C21) *)

From Coq Require Import ZArith QArith List String Bool Permutation Sorted.
From Verif Require Import Base Float Types Lookup Stats Events Rotation SpecQueue SpecPlay.
Import ListNotations.
Open Scope Z_scope.

(** An event up to its id. *)
Definition anon (e : event) : event :=
  mkEvent (ev_priority e) (ev_primary e) (ev_secondary e) (ev_skill e) (ev_modifier e) (ev_snap e)
    (ev_targets e) 0 (ev_jr_added e) (ev_jr_cond e) (ev_combo_cond e).
Definition entry (c : add_call) : event := anon (stored_event 0 c).
(** The timeline of a builder, up to ids and internal order. *)
Definition timeline (b : builder) : list event := map anon (q_heap (b_queue b)).

(** The same event [d] ms earlier; priorities are 1000 per ms. *)
Definition earlier (d : Z) (e : event) : event :=
  mkEvent (ev_priority e - 1000 * d) (ev_primary e - d)
    (match ev_secondary e with Some t => Some (t - d) | None => None end) (ev_skill e) (ev_modifier e)
    (ev_snap e) (ev_targets e) (ev_id e) (ev_jr_added e) (ev_jr_cond e) (ev_combo_cond e).
Definition press_earlier (d : Z) (p : press) : press :=
  mkPress (pr_time p - d) (pr_name p) (pr_job p) (pr_cond p).

(** ** Damage *)

Definition damages (e : event) (c : dclass) : Prop :=
  exists spec, get_damage_spec (ev_skill e) (ev_modifier e) = Ok (Some spec) /\ damage_class spec = c.

(** [d] is the time of the earliest damage of [l]. *)
Definition earliest_damage (l : list event) (d : Z) : Prop :=
  (exists e c, In e l /\ damages e c /\ effect_time e d)
  /\ forall e c t, In e l -> damages e c -> effect_time e t -> d <= t.

(** ** Downtime *)

(** [t] lies in a half-open window for damage class [c]. *)
Definition in_downtime (w : list window) (t : Z) (c : dclass) : Prop :=
  exists r, In r w /\ (w_start r <= inject_Z t)%Q /\ (inject_Z t < w_end r)%Q
            /\ (w_class r = None \/ w_class r = Some c).

(** A target of an event is spared if the event does no damage, or neither its
    application nor its snapshot falls in the target's downtime. *)
Definition spared (w : string -> list window) (e : event) (target : string) : Prop :=
  forall c t, damages e c -> effect_time e t ->
    ~ in_downtime (w target) t c /\ ~ in_downtime (w target) (ev_primary e) c.

Inductive kept {A} (P : A -> Prop) : list A -> list A -> Prop :=
| kept_nil : kept P [] []
| kept_yes x l l' : P x -> kept P l l' -> kept P (x :: l) (x :: l')
| kept_no x l l' : ~ P x -> kept P l l' -> kept P (x :: l) l'.

Definition with_targets (e : event) (tg : list string) : event :=
  mkEvent (ev_priority e) (ev_primary e) (ev_secondary e) (ev_skill e) (ev_modifier e) (ev_snap e)
    tg (ev_id e) (ev_jr_added e) (ev_jr_cond e) (ev_combo_cond e).

Inductive downtimed (w : string -> list window) : list event -> list event -> Prop :=
| dt_nil : downtimed w [] []
| dt_gone e l l' : kept (spared w e) (ev_targets e) [] -> downtimed w l l' -> downtimed w (e :: l) l'
| dt_stays e tg l l' :
    kept (spared w e) (ev_targets e) tg -> tg <> [] -> downtimed w l l' ->
    downtimed w (e :: l) (with_targets e tg :: l').

(** The windows that apply to a target: those given for all targets, or its own. *)
Definition windows_of (b : builder) (target : string) : list window :=
  match b_windows b with
  | WTuple l => if in_dec String.string_dec target (b_targets b) then l else []
  | WDict d => match dget target d with Some l => l | None => [] end
  end.

(** The same rotation without downtime, or starting at [t]. *)
Definition no_downtime (b : builder) : builder := with_windows b (WTuple []).
Definition starting (b : builder) (t : option Z) : builder :=
  mkBuilder (b_stats b) (b_library b) (b_snap_dots b) (b_autos b) (b_ignore_trailing b) t (b_windows b)
    (b_default_target b) (b_priority b) (b_timed b) (b_sequence b) (b_dots b) (b_press b) (b_queue b)
    (b_stamps b) (b_targets b).

(** ** A whole run *)

(** [slog] are the presses of the [add_next] calls, [tlog] those of the [add] calls;
    each group has trackers of its own, so neither sees the other's effects. *)
Definition rotation_played (b : builder) (slog tlog : list played) : Prop :=
  Forall2 carries_seq (b_sequence b) slog
  /\ scheduled (b_stats b) (match b_fight_start b with Some t => t | None => 0 end) None slog
  /\ (exists order, Permutation (b_timed b) order
        /\ StronglySorted (fun x y => tm_time x <= tm_time y) order /\ Forall2 carries_timed order tlog)
  /\ Forall (well_played (b_stats b)) (slog ++ tlog)
  /\ Forall (fun p => 0 <= pl_cast p) (slog ++ tlog)
  /\ exists tk, new_trackers (b_library b) (st_job (b_stats b)) (b_priority b) = Ok tk
       /\ tracked tk slog /\ tracked tk tlog.

(** How far everything moves: only without a start time, to put the first damage at 0. *)
Definition moves (start : option Z) (l : list event) (d : Z) : Prop :=
  match start with
  | Some _ => d = 0
  | None => earliest_damage l d \/ d = 0 /\ forall e c, In e l -> ~ damages e c
  end.

(** [out] is [l] sorted by time; presses at the same time keep their order. *)
Definition in_time_order (l out : list press) : Prop :=
  StronglySorted (fun x y => pr_time x <= pr_time y) out
  /\ Permutation l out
  /\ forall t, filter (fun x => pr_time x =? t) out = filter (fun x => pr_time x =? t) l.

(** The time of the last event, if there is one. *)
Definition latest (l : list event) (r : option Z) : Prop :=
  match r with
  | None => l = []
  | Some t => (exists e, In e l /\ effect_time e t) /\ forall e t', In e l -> effect_time e t' -> t' <= t
  end.

(** Autos as the timeline shows them. *)
Definition auto_entry (auto : skill) (snapshot application : Z) (target : string) : add_call :=
  plain_add (1000 * snapshot) snapshot application auto default_modifier both [target].
Definition is_auto_entry (c : add_call) : Prop := exists auto s a t, c = auto_entry auto s a t.

(** Ids as [get_skill_timing] hands them out: 0, 1, ... in queue order. *)
Definition numbered_ids (l : list event) : Prop :=
  exists out, Permutation l out /\ StronglySorted key_le out
    /\ map ev_id out = map Z.of_nat (seq 0 (List.length out)).
