(** * Specification vocabulary for the names of targets (C76) *)

From Coq Require Import ZArith QArith List String Bool.
From Verif Require Import Base Strings Types Lookup Stats Library StatusEffect Events Rotation DamageBuild Damage SpecReplay SpecShuffle.
Import ListNotations.
Open Scope Z_scope.

(** The same thing with every target called something else. *)
Definition event_as (f : string -> string) (e : event) : event :=
  mkEvent (ev_priority e) (ev_primary e) (ev_secondary e) (ev_skill e) (ev_modifier e) (ev_snap e)
    (map f (ev_targets e)) (ev_id e) (ev_jr_added e) (ev_jr_cond e) (ev_combo_cond e).
Definition queue_as (f : string -> string) (qu : queue) : queue := mkQueue (map (event_as f) (q_heap qu)) (q_next_id qu).
Definition timed_as (f : string -> string) (x : timed) : timed :=
  mkTimed (tm_time x) (tm_skill x) (tm_modifier x) (tm_job x) (map f (tm_targets x)).
Definition seq_as (f : string -> string) (x : seq_item) : seq_item :=
  mkSeq (sq_skill x) (sq_modifier x) (sq_job x) (map f (sq_targets x)).
Definition keys_as {V} (f : string -> string) (d : dict V) : dict V := map (fun kv => (f (fst kv), snd kv)) d.
Definition windows_as (f : string -> string) (w : windows) : windows :=
  match w with WTuple l => WTuple l | WDict d => WDict (keys_as f d) end.
Definition raw_windows_as (f : string -> string) (w : raw_windows) : raw_windows :=
  match w with RWTuple l => RWTuple l | RWDict d => RWDict (keys_as f d) end.
Definition instance_as (f : string -> string) (i : instance) : instance :=
  mkInst (di_time i) (di_skill i) (di_modifier i) (di_effects i) (di_id i) (f (di_target i)).
Definition report_as (f : string -> string) (r : report) : report :=
  mkReport (rp_expected r) (rp_variance r) (rp_damage r) (rp_dps r) (rp_ids r) (map f (rp_targets r)).
Definition builder_as (f : string -> string) (b : builder) : builder :=
  mkBuilder (b_stats b) (b_library b) (b_snap_dots b) (b_autos b) (b_ignore_trailing b) (b_fight_start b)
    (windows_as f (b_windows b)) (f (b_default_target b)) (b_priority b) (map (timed_as f) (b_timed b))
    (map (seq_as f) (b_sequence b)) (keys_as f (b_dots b)) (b_press b) (queue_as f (b_queue b))
    (map (fun x => (fst x, f (snd x))) (b_stamps b)) (map f (b_targets b)).

(** Different targets keep different names. *)
Definition keeps_apart (f : string -> string) : Prop := forall x y, f x = f y -> x = y.

(** Two presses of a skill at the same time name the same targets. *)
Definition ties_agree (b : builder) : Prop :=
  forall x y, In x (b_timed b) -> In y (b_timed b) -> tm_time x = tm_time y ->
  sk_name (tm_skill x) = sk_name (tm_skill y) -> tm_targets x = tm_targets y.

(** The skills a rotation plays: presses, their follow-ups, pending DoTs and autos. *)
Inductive plays (b : builder) : skill -> Prop :=
| plays_timed x : In x (b_timed b) -> plays b (tm_skill x)
| plays_next x : In x (b_sequence b) -> plays b (sq_skill x)
| plays_timed_later x m l fu : In x (b_timed b) -> get_follow_up_skills (tm_skill x) m = Ok l -> In fu l -> plays b (fu_skill fu)
| plays_next_later x m l fu : In x (b_sequence b) -> get_follow_up_skills (sq_skill x) m = Ok l -> In fu l -> plays b (fu_skill fu)
| plays_dot k l fu es : In (k, l) (b_dots b) -> In (fu, es) l -> plays b (fu_skill fu)
| plays_auto s : auto_skill_of (b_library b) (st_job (b_stats b)) = Ok s -> plays b s.

(** A debuff that times nothing: it changes no recast and no time between autos, adds no
    condition to a press and forces no outcome. *)
Definition untimely (sp : status_spec) : Prop :=
  haste_time_reduction sp = 0%Q /\ auto_attack_delay_reduction sp = 0%Q /\ add_to_skill_modifier_condition sp = false
  /\ se_crit sp = F_DEFAULT /\ se_dh sp = F_DEFAULT.
(** The debuffs of a rotation time nothing, and no buff ends them. *)
Definition debuffs_apart (b : builder) : Prop :=
  forall s m sp, plays b s -> get_debuff_spec s m = Ok (Some sp) ->
  untimely sp
  /\ forall s' m' sp', plays b s' -> get_buff_spec s' m' = Ok (Some sp') -> ~ In (sk_name s) (expires_status_effects sp').

(** The targets a call names: parts between commas, without surrounding blanks, of its
    argument or else of the builder's default. *)
Definition asked_for (default : string) (t : option string) : list string :=
  split_targets (match t with Some s => s | None => default end).
(** The same call naming the targets anew. *)
Definition call_as (f : string -> string) (default : string) (c c' : call) : Prop :=
  c_name c' = c_name c /\ c_modifier c' = c_modifier c /\ c_job c' = c_job c
  /\ asked_for (f default) (c_targets c') = map f (asked_for default (c_targets c)).
Definition instr_as (f : string -> string) (default : string) (i i' : instr) : Prop :=
  match i, i' with
  | NextPress c n, NextPress c' n' => n' = n /\ call_as f default c c'
  | PressAt t c, PressAt t' c' => t' = t /\ call_as f default c c'
  | _, _ => False
  end.
(** Two names change places. *)
Definition exchange (a b x : string) : string := if String.eqb x a then b else if String.eqb x b then a else x.
