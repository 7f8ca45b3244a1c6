(** * Specification vocabulary for what a rotation needs of its library (C77) *)

From Coq Require Import ZArith QArith List String Bool.
From Verif Require Import Base Types Stats Library Events Rotation Damage SpecReplay SpecShuffle SpecMove.
Import ListNotations.
Open Scope string_scope.
Open Scope Z_scope.

(** The skill and job a call asks the library for; without a job it is the player's. *)
Definition asked (own : string) (i : instr) : string * string :=
  let c := match i with NextPress c _ | PressAt _ c => c end in
  (c_name c, match c_job c with Some j => j | None => own end).

(** Two libraries give a player the same rules and the same skills for these calls. *)
Definition same_for (own : string) (autos : bool) (calls : list instr) (lib lib' : library) : Prop :=
  get_status_effect_priority lib own = get_status_effect_priority lib' own
  /\ get_all_resource_settings lib own = get_all_resource_settings lib' own
  /\ get_all_combo_breakers lib own = get_all_combo_breakers lib' own
  /\ (forall i, In i calls -> get_skill lib (fst (asked own i)) (snd (asked own i)) = get_skill lib' (fst (asked own i)) (snd (asked own i)))
  /\ (autos = true -> has_skill lib "Shot" own = has_skill lib' "Shot" own
      /\ get_skill lib "Shot" own = get_skill lib' "Shot" own /\ get_skill lib "Auto" own = get_skill lib' "Auto" own).

(** A new builder and these calls: the events and presses of get_skill_timing, and the report. *)
Definition timing_with (st : stats) (lib : library) (snap : option Q) (autos trailing : bool) (start : option Z)
    (w : raw_windows) (target : string) (calls : list instr) : res (queue * list press) :=
  let* b := rb_init st lib snap autos trailing start w target in
  let* b1 := follow b calls in
  let* r := get_skill_timing b1 in
  Ok (b_queue r, b_press r).
Definition report_with (st : stats) (lib : library) (snap : option Q) (autos trailing : bool) (start : option Z)
    (w : raw_windows) (target : string) (calls : list instr) (n : nat) (u u' : nat -> nat -> draws) : res report :=
  let* b := rb_init st lib snap autos trailing start w target in
  let* b1 := follow b calls in
  report_of b1 n u u'.

(** A job the library has been given. *)
Definition knows (lib : library) (j : string) : Prop :=
  In j (dkeys (lib_skills lib)) /\ In j (dkeys (lib_priority lib)) /\ In j (dkeys (lib_resources lib)) /\ In j (dkeys (lib_breakers lib)).
