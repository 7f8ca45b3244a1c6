(** * Specification vocabulary for rotations pressed again at reported times (C73) *)

From Coq Require Import ZArith QArith List String Bool Sorted.
From Verif Require Import Base Float Strings Types Lookup Stats Library Events Rotation Csv SpecQueue SpecPlay SpecTimeline SpecRun.
Import ListNotations.
Open Scope string_scope.
Open Scope Z_scope.

(** A press as the API takes it, the time aside. *)
Record call := mkCall { c_name : string; c_modifier : option modifier; c_job : option string; c_targets : option string }.

(** The presses one after the other, by [add_next]. *)
Definition one_by_one (b : builder) (l : list call) : res builder :=
  foldM (fun b c => add_next b (c_name c) (c_modifier c) (c_job c) 1 (c_targets c)) l b.
(** The presses at given times, in seconds, by [add]. *)
Definition at_times (b : builder) (l : list (call * Q)) : res builder :=
  foldM (fun b x => add b (snd x) (c_name (fst x)) (c_modifier (fst x)) (c_job (fst x)) (c_targets (fst x))) l b.

(** A new builder. *)
Definition no_calls (b : builder) : Prop := b_timed b = [] /\ b_sequence b = [].

(** The times, in seconds, become the reported press times, [d] ms later. *)
Definition reported_at (d : Z) (r : builder) (ts : list Q) : Prop :=
  Forall2 (fun t p => truncates (fmul 1000 t) (pr_time p + d)) ts (get_button_press_timing r).
(** No two presses at one time. *)
Definition apart_presses (r : builder) : Prop := NoDup (map pr_time (get_button_press_timing r)).

(** Both runs give the same: events, their numbers, and presses. *)
Definition same_run (r r' : builder) : Prop :=
  b_queue r' = b_queue r /\ timeline r' = timeline r /\ get_button_press_timing r' = get_button_press_timing r.

(** A call whose press can be read off the report: the default targets and modifier, or
    a modifier of conditions alone. *)
Definition reportable (c : call) : Prop :=
  c_targets c = None /\ c_job c <> Some ""
  /\ (c_modifier c = None \/ exists w, c_modifier c = Some (modifier_with w) /\ join "," (canonicalize w) <> "").
(** Skills are found under their names. *)
Definition named_lookup (lib : library) : Prop :=
  forall name job s, get_skill lib name job = Ok s -> sk_name s = name.
(** [t] ms, printed in seconds and read again. *)
Definition survives (t : Z) : Prop := truncates (fmul 1000 (fl (inject_Z t / 1000))) t.
