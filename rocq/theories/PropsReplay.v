(** * Rotations pressed again at reported times (property C73) *)

From Coq Require Import ZArith QArith List String Bool.
From Verif Require Import Base Float Strings Types Lookup Stats Library Events Rotation Csv Export Fixtures SpecPlay SpecTimeline SpecRun
  SpecReplay ReplayFacts ReplayCase.
Import ListNotations.
Open Scope string_scope.
Open Scope Z_scope.

(** ** C73: a sequence, and the same presses at their reported times *)

(** Without autos: [add_next] calls, and [add] calls at the times these were reported, give
    the same events and presses.  Without a fight start the times are moved by one number. *)
Theorem C73_replay b0 l b r :
  reachable b0 -> no_calls b0 -> b_autos b0 = false -> one_by_one b0 l = Ok b -> nonneg_locks b ->
  get_skill_timing b = Ok r -> apart_presses r ->
  exists d, (b_fight_start b0 <> None -> d = 0)
    /\ forall ts, reported_at d r ts ->
       exists b2 r2, at_times b0 (combine l ts) = Ok b2 /\ get_skill_timing b2 = Ok r2 /\ same_run r r2.
Proof. exact (replay b0 l b r). Qed.
Print Assumptions C73_replay.

(** So do the printed presses when read again, if every time survives the conversion to
    seconds and back. *)
Theorem C73_printed b0 l b r :
  reachable b0 -> no_calls b0 -> b_autos b0 = false -> b_fight_start b0 <> None -> named_lookup (b_library b0) ->
  Forall reportable l -> one_by_one b0 l = Ok b -> nonneg_locks b -> get_skill_timing b = Ok r -> apart_presses r ->
  (forall p, In p (get_button_press_timing r) -> survives (pr_time p)) ->
  exists b2 r2, populate_rotation b0 (Some (printed_rows r)) = Ok b2 /\ get_skill_timing b2 = Ok r2 /\ same_run r r2.
Proof. exact (reread b0 l b r). Qed.
Print Assumptions C73_printed.

(** The report of a condition is read as the same condition. *)
Theorem C73_conditions w :
  join "," (canonicalize w) <> "" -> modifier_with (join "," (canonicalize w)) = modifier_with w.
Proof. intros H. unfold modifier_with. rewrite (canonicalize_again w H). reflexivity. Qed.
Print Assumptions C73_conditions.

(** Not every time survives: 1001 ms are read again as 1000 ms. *)
Theorem C73_printed_refuted :
  ~ (forall b0 l b r b2 r2,
       reachable b0 -> no_calls b0 -> b_autos b0 = false -> b_fight_start b0 <> None -> named_lookup (b_library b0) ->
       Forall reportable l -> one_by_one b0 l = Ok b -> nonneg_locks b -> get_skill_timing b = Ok r -> apart_presses r ->
       populate_rotation b0 (Some (printed_rows r)) = Ok b2 -> get_skill_timing b2 = Ok r2 ->
       get_button_press_timing r2 = get_button_press_timing r).
Proof. exact printing_refuted. Qed.
Print Assumptions C73_printed_refuted.

(** With autos it is false: casts by [add] hold autos back, casts by [add_next] do not. *)
Theorem C73_autos_refuted :
  ~ (forall b0 l b r ts,
       reachable b0 -> no_calls b0 -> b_fight_start b0 <> None -> one_by_one b0 l = Ok b -> nonneg_locks b ->
       get_skill_timing b = Ok r -> apart_presses r -> reported_at 0 r ts ->
       forall b2 r2, at_times b0 (combine l ts) = Ok b2 -> get_skill_timing b2 = Ok r2 -> timeline r2 = timeline r).
Proof. exact autos_replay_refuted. Qed.
Print Assumptions C73_autos_refuted.

(** *** Cases *)

(** Boost, a hit, a DoT on two targets, a cast with a condition and an off-GCD, with downtime. *)
Example C73_case :
  reachable rc_b0 /\ no_calls rc_b0 /\ b_autos rc_b0 = false /\ b_fight_start rc_b0 <> None
  /\ one_by_one rc_b0 rc_calls = Ok rc_b /\ nonneg_locks rc_b /\ get_skill_timing rc_b = Ok rc_r /\ apart_presses rc_r
  /\ reported_at 0 rc_r rc_times /\ List.length (timeline rc_r) = 12%nat.
Proof. destruct rc_ok as (_ & E1 & E2). destruct rc_facts as (F1 & F2 & F3 & F4 & F5 & F6 & F7 & F8). auto 20. Qed.
Example C73_case_applies : exists b2 r2, at_times rc_b0 (combine rc_calls rc_times) = Ok b2 /\ get_skill_timing b2 = Ok r2 /\ same_run rc_r r2.
Proof.
  destruct C73_case as (F1 & F2 & F3 & F4 & E1 & F5 & E2 & F6 & F7 & _).
  destruct (C73_replay _ _ _ _ F1 F2 F3 E1 F5 E2 F6) as (d & D & K). rewrite (D F4) in K. exact (K _ F7).
Qed.

(** The presses on the default target, printed and read again. *)
Example C73_case_printed : exists b2 r2, populate_rotation rc_b0 (Some (printed_rows re_r)) = Ok b2 /\ get_skill_timing b2 = Ok r2 /\ same_run re_r r2.
Proof.
  destruct C73_case as (F1 & F2 & F3 & F4 & _). destruct re_ok as (E1 & E2). destruct re_facts as (G1 & G2 & G3 & G4 & G5 & _).
  exact (C73_printed _ _ _ _ F1 F2 F3 F4 G2 G1 E1 G3 E2 G4 G5).
Qed.
