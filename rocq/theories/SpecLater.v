(** * Specification vocabulary for rotations that go on (C71) *)

From Coq Require Import ZArith QArith List String Bool Permutation.
From Verif Require Import Base Float Types Lookup Stats Library Events Rotation SpecQueue SpecPlay SpecTimeline SpecDots SpecRun.
Import ListNotations.
Open Scope Z_scope.

(** [t] seconds, in whole ms, is later than every timed press so far. *)
Definition later_press (b : builder) (t : Q) : Prop :=
  forall z, truncates (fmul 1000 t) z -> forall x, In x (b_timed b) -> tm_time x < z.

(** [b'] is [b] with more presses at its end: [add_next] calls, and [add] calls later
    than all [add] calls before them. *)
Inductive continued (b : builder) : builder -> Prop :=
| cont_here : continued b b
| cont_next b1 name m job n targets b2 :
    continued b b1 -> add_next b1 name m job n targets = Ok b2 -> continued b b2
| cont_add b1 t name m job targets b2 :
    continued b b1 -> later_press b1 t -> add b1 t name m job targets = Ok b2 -> continued b b2.

(** No two [add] calls at one time. *)
Definition distinct_times (b : builder) : Prop := NoDup (map tm_time (b_timed b)).

(** The delays declared for follow-ups are non-negative. *)
Definition nonneg_follow_ups (b : builder) : Prop :=
  forall s m fus fu, In s (skills_of b) -> get_follow_up_skills s m = Ok fus -> In fu fus -> 0 <= fu_delay fu.

(** The events of a timeline that take effect before [t]. *)
Definition before (t : Z) (l : list event) : list event :=
  filter (fun e => (match ev_secondary e with Some a => a | None => ev_primary e end) <? t) l.

(** What a timeline shows that comes from no press directly: ticks and autos. *)
Definition is_tick_entry (c : add_call) : Prop := exists fu target n e t, c = tick_entry fu target n e t.
Definition background (w : string -> list window) (l : list event) : Prop :=
  exists cs, Forall (fun c => is_tick_entry c \/ is_auto_entry c) cs /\ downtimed w (map entry cs) l.

(** Python's [==] tells the damage-over-time effects of the rotation's skills apart. *)
Definition tells_apart (b : builder) : Prop :=
  forall s1 s2 m1 m2 l1 l2 f1 f2,
    In s1 (skills_of b) -> In s2 (skills_of b) ->
    get_follow_up_skills s1 m1 = Ok l1 -> get_follow_up_skills s2 m2 = Ok l2 ->
    In f1 l1 -> In f2 l2 -> fu_dot f1 <> None -> fu_dot f2 <> None ->
    (follow_up_eqb f1 f2 = true <-> f1 = f2).
(** No server ticks, or times small enough for doubles to be exact. *)
Definition exact_ticks (b : builder) : Prop :=
  b_snap_dots b = None
  \/ forall slog tlog p, rotation_played b slog tlog -> In p (slog ++ tlog) -> Z.abs (pl_application p) <= 2 ^ 51.

(** [new] are the presses a run reports beyond those of another. *)
Definition more_presses (r r' : builder) (new : list press) : Prop :=
  Permutation (get_button_press_timing r') (get_button_press_timing r ++ new).
