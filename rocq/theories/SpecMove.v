(** * Specification vocabulary for rotations moved in time (C70) *)

From Coq Require Import ZArith QArith List String Bool.
From Verif Require Import Base Types Lookup Stats Library Events Rotation DamageBuild Damage.
Import ListNotations.
Open Scope Z_scope.

(** The same thing [d] ms later (earlier when [d < 0]); priorities are 1000 per ms. *)
Definition event_later (d : Z) (e : event) : event :=
  mkEvent (ev_priority e + 1000 * d) (ev_primary e + d)
    (match ev_secondary e with Some t => Some (t + d) | None => None end) (ev_skill e) (ev_modifier e)
    (ev_snap e) (ev_targets e) (ev_id e) (ev_jr_added e) (ev_jr_cond e) (ev_combo_cond e).
Definition queue_later (d : Z) (qu : queue) : queue := mkQueue (map (event_later d) (q_heap qu)) (q_next_id qu).
Definition press_later (d : Z) (p : press) : press := mkPress (pr_time p + d) (pr_name p) (pr_job p) (pr_cond p).
Definition stamp_later (d : Z) (x : Z * string) : Z * string := (fst x + d, snd x).
Definition asked_later (d : Z) (x : timed) : timed :=
  mkTimed (tm_time x + d) (tm_skill x) (tm_modifier x) (tm_job x) (tm_targets x).
Definition entry_later (d : Z) (e : dot_entry) : dot_entry := let '(snap, app, pm) := e in (snap + d, app + d, pm).
Definition dots_later (d : Z) (ds : dots) : dots :=
  map (fun kv => (fst kv, map (fun x => (fst x, map (entry_later d) (snd x))) (snd kv))) ds.
Definition instance_later (d : Z) (i : instance) : instance :=
  mkInst (di_time i + d) (di_skill i) (di_modifier i) (di_effects i) (di_id i) (di_target i).

(** The same downtime window [d] ms later; its bounds are rationals. *)
Definition window_moved (d : Z) (w w' : window) : Prop :=
  (w_start w' == w_start w + inject_Z d)%Q /\ (w_end w' == w_end w + inject_Z d)%Q /\ w_class w' = w_class w.
Definition windows_moved (d : Z) (w w' : windows) : Prop :=
  match w, w' with
  | WTuple l, WTuple l' => Forall2 (window_moved d) l l'
  | WDict x, WDict y => Forall2 (fun a b => fst b = fst a /\ Forall2 (window_moved d) (snd a) (snd b)) x y
  | _, _ => False
  end.

(** [b'] has the settings and the sequence of [b]; its timed presses, and what earlier
    runs left behind, are [d] ms later. *)
Definition presses_moved (d : Z) (b b' : builder) : Prop :=
  b_stats b' = b_stats b /\ b_library b' = b_library b /\ b_snap_dots b' = b_snap_dots b /\ b_autos b' = b_autos b
  /\ b_ignore_trailing b' = b_ignore_trailing b /\ b_default_target b' = b_default_target b /\ b_priority b' = b_priority b
  /\ b_timed b' = map (asked_later d) (b_timed b) /\ b_sequence b' = b_sequence b
  /\ b_dots b' = dots_later d (b_dots b) /\ b_press b' = map (press_later d) (b_press b)
  /\ b_queue b' = queue_later d (b_queue b) /\ b_stamps b' = map (stamp_later d) (b_stamps b)
  /\ b_targets b' = b_targets b.
(** Also the start of the fight and the downtime are [d] ms later. *)
Definition moved (d : Z) (b b' : builder) : Prop :=
  presses_moved d b b'
  /\ (exists t, b_fight_start b = Some t /\ b_fight_start b' = Some (t + d))
  /\ windows_moved d (b_windows b) (b_windows b').

(** No resource of the job runs out by itself. *)
Definition lasting_resources (lib : library) (job : string) : Prop :=
  forall rs n c, get_all_resource_settings lib job = Ok rs -> In (n, c) rs -> jrs_expiry c = Inf.

(** No rounding to the server's tick, no dropping of trailing ticks. *)
Definition plain_dots (b : builder) : Prop := b_snap_dots b = None /\ b_ignore_trailing b = false.

(** What the simulator reports for a rotation: get_skill_timing, a new DamageBuilder, a
    new DamageSimulator. *)
Definition report_of (b : builder) (samples : nat) (u_range u_sample : nat -> nat -> draws) : res report :=
  let* b1 := get_skill_timing b in
  let* tk := db_init (b_stats b) (b_library b) in
  let* (_, _, out) := get_damage_instances tk (b_queue b1) in
  let* sim := ds_init (b_stats b) out in
  run_simulator sim samples u_range u_sample.
