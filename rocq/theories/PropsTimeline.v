(** * C19-C21: moving the timeline, downtime, running again *)

From Coq Require Import ZArith QArith List String Bool Permutation Sorted.
From Verif Require Import Base Float Types Lookup StatusEffect Stats Library Events Rotation SpecQueue SpecPlay SpecTimeline SpecDots
  SpecRun SpecReplay SpecShuffle RunProps RunAgain TimelineProps RunCounter SpecSettings SettingsFacts DowntimeFacts Fixtures.
Import ListNotations.
Open Scope string_scope.
Open Scope Z_scope.

(** C19: compared with the same rotation started at 0, everything moves by one amount
    [d], the time of the earliest damage. *)
Theorem C19_shifted b b1 :
  reachable b -> b_fight_start b = None -> no_windows b -> get_skill_timing b = Ok b1 ->
  exists b0 d, get_skill_timing (starting b (Some 0)) = Ok b0
    /\ moves None (timeline b0) d
    /\ Permutation (timeline b1) (map (earlier d) (timeline b0))
    /\ get_button_press_timing b1 = map (press_earlier d) (get_button_press_timing b0).
Proof. exact (shifted b b1). Qed.
Print Assumptions C19_shifted.

(** ... which puts the first damage at 0. *)
Theorem C19_first_damage_at_zero b b1 :
  reachable b -> b_fight_start b = None -> no_windows b -> get_skill_timing b = Ok b1 ->
  (exists e c, In e (timeline b1) /\ damages e c) ->
  earliest_damage (timeline b1) 0.
Proof. exact (first_damage_at_zero b b1). Qed.
Print Assumptions C19_first_damage_at_zero.

Theorem C19_no_damage_no_move b b1 :
  reachable b -> b_fight_start b = None -> no_windows b -> get_skill_timing b = Ok b1 ->
  (forall e c, In e (timeline b1) -> ~ damages e c) ->
  exists b0, get_skill_timing (starting b (Some 0)) = Ok b0
    /\ Permutation (timeline b1) (timeline b0) /\ get_button_press_timing b1 = get_button_press_timing b0.
Proof. exact (no_damage_no_move b b1). Qed.
Print Assumptions C19_no_damage_no_move.

(** With windows the shift still comes first: they act on the shifted timeline. *)
Theorem C19_general b b' :
  reachable b -> get_skill_timing b = Ok b' ->
  exists slog tlog extra d, rotation_played b slog tlog
    /\ moves (b_fight_start b) (map entry (flat_map press_entries (slog ++ tlog) ++ extra)) d
    /\ shows_presses b b' (slog ++ tlog) d
    /\ shows_timeline b b' (flat_map press_entries (slog ++ tlog) ++ extra) d.
Proof. exact (timeline_moves b b'). Qed.
Print Assumptions C19_general.

(** C20 *)
Theorem C20_downtime b b1 :
  reachable b -> b_autos b = false -> get_skill_timing b = Ok b1 ->
  exists b0, get_skill_timing (no_downtime b) = Ok b0
    /\ (exists evs, downtimed (windows_of b) (timeline b0) evs /\ Permutation (timeline b1) evs)
    /\ get_button_press_timing b1 = get_button_press_timing b0.
Proof. exact (downtime_removed b b1). Qed.
Print Assumptions C20_downtime.

(** No damage in downtime, autos or not. *)
Theorem C20_all_spared b b' e target :
  reachable b -> get_skill_timing b = Ok b' ->
  In e (timeline b') -> In target (ev_targets e) ->
  spared (windows_of b) e target.
Proof. exact (all_spared b b' e target). Qed.
Print Assumptions C20_all_spared.

(** The windows are the ones asked for, in seconds. *)
Theorem C20_seconds st lib snap autos tr start w dt b0 b target t c :
  rb_init st lib snap autos tr start w dt = Ok b0 -> b_windows b = b_windows b0 -> In target (b_targets b) ->
  (in_downtime (windows_of b target) t c <-> asked_at (asked w target) t c).
Proof. exact (windows_asked st lib snap autos tr start w dt b0 b target t c). Qed.
Print Assumptions C20_seconds.
Theorem C20_kept b b' :
  (forall name m job n tg, add_next b name m job n tg = Ok b' -> b_windows b' = b_windows b)
  /\ (forall t name m job tg, add b t name m job tg = Ok b' -> b_windows b' = b_windows b)
  /\ (forall x, b_windows (set_enable_autos b x) = b_windows b) /\ (forall x, b_windows (set_ignore_trailing_dots b x) = b_windows b).
Proof. exact (windows_kept b b'). Qed.
Print Assumptions C20_kept.
Example C20_case_seconds :
  asked_at (asked (RWDict [("Boss", [(dec 64 10, dec 66 10, None)])]) "Boss") 6400 DC_DIRECT
  /\ ~ asked_at (asked (RWDict [("Boss", [(dec 64 10, dec 66 10, None)])]) "Boss") 6600 DC_DIRECT
  /\ ~ asked_at (asked (RWDict [("Boss", [(dec 64 10, dec 66 10, None)])]) "Add") 6400 DC_DIRECT.
Proof.
  split; [|split].
  - exists (dec 64 10), (dec 66 10), None. split; [left; reflexivity|]. split; [vm_compute; discriminate|]. split; [vm_compute; reflexivity | left; reflexivity].
  - intros (s & e & k & [E|[]] & _ & L & _). injection E as <- <- _. vm_compute in L. discriminate L.
  - intros (s & e & k & [] & _).
Qed.

(** From the constructor's argument to the timeline: no target is damaged in the downtime asked
    for it, or for all targets. *)
Theorem C20_asked st lib snap tr start w dt b0 l b b' e target c t :
  rb_init st lib snap false tr start w dt = Ok b0 -> follow b0 l = Ok b -> get_skill_timing b = Ok b' ->
  In e (timeline b') -> In target (ev_targets e) -> damages e c -> effect_time e t ->
  ~ asked_at (asked w target) t c /\ ~ asked_at (asked w target) (ev_primary e) c.
Proof. exact (asked_downtime st lib snap tr start w dt b0 l b b' e target c t). Qed.
Print Assumptions C20_asked.
(** Three targets, and downtime of all from 2 s to 4 s: the second hit is gone, the third on two of them stays. *)
Example C20_case_asked :
  match rb_init fx_stats fx_library None false false (Some 0) (RWTuple [(2%Q, 4%Q, None)]) DEFAULT_TARGET with
  | Ok b0 => match follow b0 [NextPress (mkCall "Hit" None None (Some "A, B, C")) 2; NextPress (mkCall "Hit" None None (Some "B, C")) 1] with
             | Ok b => match get_skill_timing b with
                       | Ok b' => map (fun e => (ev_primary e, ev_secondary e, ev_targets e)) (timeline b')
                                  = [(0, Some 500, ["A"; "B"; "C"]); (4880, Some 5380, ["B"; "C"])]
                       | Err _ => False end
             | Err _ => False end
  | Err _ => False end.
Proof. vm_compute. reflexivity. Qed.

(** Windows given for all targets apply to the targets known at the first
    [get_skill_timing]; targets that appear later have no downtime. *)
Theorem C20_later_targets_refuted :
  ~ (forall w b b1 b2 b' e c t,
       built b -> b_windows b = WTuple w -> get_skill_timing b = Ok b1 ->
       (exists time name m job targets, add b1 time name m job targets = Ok b2) ->
       get_skill_timing b2 = Ok b' ->
       In e (timeline b') -> damages e c -> effect_time e t -> ~ in_downtime w t c).
Proof. exact windows_refuted. Qed.
Print Assumptions C20_later_targets_refuted.

(** C21 *)
Theorem C21_run_again b b' :
  built b -> b_autos b = false -> get_skill_timing b = Ok b' ->
  exists slog tlog, rotation_played b slog tlog
    /\ (distinguishable (flat_map press_dots (slog ++ tlog)) ->
        small_times (b_snap_dots b) (flat_map press_dots (slog ++ tlog)) ->
        exists b'', get_skill_timing b' = Ok b''
          /\ b_queue b'' = b_queue b' /\ get_button_press_timing b'' = get_button_press_timing b').
Proof. exact (run_again b b'). Qed.
Print Assumptions C21_run_again.

(** ** Examples *)

(** Hit twice on two targets, with downtime of B from 2 s to 10 s. *)
Definition ex_downtime (start : option Z) : res builder :=
  let* b := fx_builder false false start (RWDict [("B", [(2%Q, 10%Q, None)])]) in
  let* b := add_next b "Hit" None None 2 (Some "A, B") in
  add_next b "Hit" None None 1 (Some "B").
Definition shown (r : res builder) : option (list (Z * option Z * list string * Z) * list Z) :=
  match r with
  | Ok b => match get_skill_timing b with
            | Ok b' => Some (map (fun e => (ev_primary e, ev_secondary e, ev_targets e, ev_id e)) (q_heap (b_queue b')),
                             map pr_time (get_button_press_timing b'))
            | Err _ => None
            end
  | Err _ => None
  end.
(** The GCD is 2.44 s at this speed. *)
Example ex_downtime_removed :
  shown (ex_downtime (Some 0)) = Some ([(0, Some 500, ["A"; "B"], 0); (2440, Some 2940, ["A"], 1)], [0; 2440; 4880]).
Proof. vm_compute. reflexivity. Qed.
Example ex_shifted :
  shown (ex_downtime None) = Some ([(-500, Some 0, ["A"; "B"], 0); (1940, Some 2440, ["A"], 1)], [-500; 1940; 4380]).
Proof. vm_compute. reflexivity. Qed.
(** Running again gives the same. *)
Example ex_again :
  match ex_downtime None with
  | Ok b => match get_skill_timing b with Ok b' => shown (Ok b') = shown (Ok b) | Err _ => False end
  | Err _ => False
  end.
Proof. vm_compute. reflexivity. Qed.
