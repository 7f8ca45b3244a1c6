(** * C16-C18: damage over time *)

From Coq Require Import ZArith QArith List String Bool Permutation Sorted.
From Verif Require Import Base Float Types Lookup StatusEffect Stats Library Events Rotation SpecQueue SpecPlay SpecTimeline SpecDots
  SpecRun RunProps DotProps RunStories RunCounter Fixtures.
Import ListNotations.
Open Scope string_scope.
Open Scope Z_scope.

(** C16, C17: the timeline is the presses, the ticks of every effect on every target,
    and the autos. *)
Theorem C16_timeline_ticks b b' :
  built b -> get_skill_timing b = Ok b' ->
  exists slog tlog ticks autos d last first,
    rotation_played b slog tlog
    /\ shows_timeline b b' (flat_map press_entries (slog ++ tlog) ++ ticks ++ autos) d
    /\ (b_fight_start b <> None -> d = 0)
    /\ (b_autos b = false -> autos = [])
    /\ first_ticks (b_snap_dots b) first
    /\ (b_ignore_trailing b = false -> last = None)
    /\ (b_ignore_trailing b = true -> latest (map entry (flat_map press_entries (slog ++ tlog))) last)
    /\ (distinguishable (flat_map press_dots (slog ++ tlog)) ->
        small_times (b_snap_dots b) (flat_map press_dots (slog ++ tlog)) ->
        exists ks, effects_of (flat_map press_dots (slog ++ tlog)) ks
          /\ all_ticks first last (flat_map press_dots (slog ++ tlog)) ks ticks).
Proof. exact (dots_shown b b'). Qed.
Print Assumptions C16_timeline_ticks.

(** Every tick has its application: it snapshots with it and comes while it lasts; ticks
    of successive applications never interleave or double up. *)
Theorem C16_ticks b b' :
  built b -> get_skill_timing b = Ok b' ->
  exists slog tlog ticks autos d,
    rotation_played b slog tlog
    /\ shows_timeline b b' (flat_map press_entries (slog ++ tlog) ++ ticks ++ autos) d
    /\ (b_fight_start b <> None -> d = 0)
    /\ (b_autos b = false -> autos = [])
    /\ let l := flat_map press_dots (slog ++ tlog) in
       (distinguishable l -> small_times (b_snap_dots b) l ->
        exists xs, Forall2 (shows_tick l) xs ticks /\ no_double xs
          /\ (forall x, In x xs -> tick_in_time (b_snap_dots b) l x)
          /\ (forall x y, In x xs -> In y xs -> in_turn (b_snap_dots b) l x y)).
Proof. exact (run_ticks b b'). Qed.
Print Assumptions C16_ticks.

(** C17.  With the server's ticks known, every tick is one of them, and an application
    not reapplied at once ticks with the first server tick after it. *)
Theorem C17_aligned_partial b b' s0 o :
  built b -> get_skill_timing b = Ok b' ->
  b_snap_dots b = Some s0 -> (fmul 1000 s0 == inject_Z o)%Q -> Z.abs o <= 2 ^ 51 ->
  exists slog tlog ticks autos d,
    rotation_played b slog tlog
    /\ shows_timeline b b' (flat_map press_entries (slog ++ tlog) ++ ticks ++ autos) d
    /\ (b_fight_start b <> None -> d = 0)
    /\ (b_autos b = false -> autos = [])
    /\ let l := flat_map press_dots (slog ++ tlog) in
       (distinguishable l -> small_times (b_snap_dots b) l ->
        exists xs, Forall2 (shows_tick l) xs ticks
          /\ (forall x, In x xs -> (3000 | tl_time x - o) /\ exists e, cause l x = Some e /\ app_time e <= tl_time x)
          (* an application that nothing supersedes ticks within 3 s if it lasts that long *)
          /\ (b_ignore_trailing b = false ->
              forall target fu dur e, In (target, fu, e) l -> fu_dot fu = Some dur -> 3000 <= dur ->
              (forall e', In (target, fu, e') l -> app_time e' <= app_time e \/ app_time e + 3000 <= app_time e') ->
              exists x, In x xs /\ tl_target x = target /\ tl_effect x = fu /\ app_time e <= tl_time x < app_time e + 3000)).
Proof. exact (run_aligned b b' s0 o). Qed.
Print Assumptions C17_aligned_partial.

(** The offset is given in seconds and multiplied by 1000 in double precision: with
    2.01 s ticks come 1 ms early. *)
Theorem C17_offset_refuted :
  ~ (forall k b b' e t, built b -> b_snap_dots b = Some (dec k 1000) -> get_skill_timing b = Ok b' ->
       In e (timeline b') -> damages e DC_MAGICAL_DOT -> effect_time e t -> (3000 | t - k)).
Proof. exact offset_refuted. Qed.
Print Assumptions C17_offset_refuted.

(** C18 *)
Theorem C18_trailing_dropped_partial b b0 b1 :
  built b -> b_autos b = false -> b_fight_start b <> None -> no_windows b ->
  get_skill_timing (set_ignore_trailing_dots b false) = Ok b0 ->
  get_skill_timing (set_ignore_trailing_dots b true) = Ok b1 ->
  exists slog tlog ticks first,
    rotation_played b slog tlog
    /\ (distinguishable (flat_map press_dots (slog ++ tlog)) ->
        small_times (b_snap_dots b) (flat_map press_dots (slog ++ tlog)) ->
        (exists ks, effects_of (flat_map press_dots (slog ++ tlog)) ks
            /\ all_ticks first None (flat_map press_dots (slog ++ tlog)) ks ticks)
        /\ Permutation (timeline b0) (map entry (flat_map press_entries (slog ++ tlog)) ++ map entry ticks)
        /\ forall last, latest (map entry (flat_map press_entries (slog ++ tlog))) (Some last) ->
             Permutation (timeline b1)
               (map entry (flat_map press_entries (slog ++ tlog)) ++ filter (not_after last) (map entry ticks))).
Proof. exact (trailing_dropped b b0 b1). Qed.
Print Assumptions C18_trailing_dropped_partial.

(** A last event at time 0 is taken for no last event, and every tick stays. *)
Theorem C18_last_event_at_zero_refuted :
  ~ (forall b b' e t, built b -> b_ignore_trailing b = true -> b_autos b = false -> b_fight_start b <> None ->
       get_skill_timing b = Ok b' -> In e (timeline b') -> effect_time e t ->
       exists e' t', In e' (timeline b') /\ ~ damages e' DC_MAGICAL_DOT /\ effect_time e' t' /\ t <= t').
Proof. exact trailing_refuted. Qed.
Print Assumptions C18_last_event_at_zero_refuted.

(** ** Examples *)

(** Burn at 0 and 2500 ms (applied 400 ms later), then reapplied 10 s after it ran out. *)
Definition ex_dots (snap : option Q) (trailing : bool) : res (list (Z * Z)) :=
  let* b := rb_init fx_stats fx_library snap false trailing (Some 0) (RWTuple []) DEFAULT_TARGET in
  let* b := add b 0 "Burn" None None None in
  let* b := add b (q 10) "Burn" None None None in
  let* b := add b (q 27) "Burn" None None None in
  let* b := get_skill_timing b in
  Ok (map (fun e => (ev_primary e, match ev_secondary e with Some t => t | None => ev_primary e end))
        (filter (fun e => String.eqb (sk_name (ev_skill e)) "Burn (tick)") (q_heap (b_queue b)))).

Definition sort_pairs (l : list (Z * Z)) : list (Z * Z) := sort_by snd l.
Example ex_ticks :
  match ex_dots None false with
  | Ok l => sort_pairs l = [(0, 400); (0, 3400); (0, 6400); (0, 9400);
                            (10000, 10400); (10000, 13400); (10000, 16400); (10000, 19400); (10000, 22400);
                            (27000, 27400); (27000, 30400); (27000, 33400); (27000, 36400); (27000, 39400)]
  | Err _ => False
  end.
Proof. vm_compute. reflexivity. Qed.
Example ex_server_ticks :
  match ex_dots (Some (dec 500 1000)) false with
  | Ok l => sort_pairs l = [(0, 500); (0, 3500); (0, 6500); (0, 9500);
                            (10000, 12500); (10000, 15500); (10000, 18500); (10000, 21500); (10000, 24500);
                            (27000, 27500); (27000, 30500); (27000, 33500); (27000, 36500); (27000, 39500)]
  | Err _ => False
  end.
Proof. vm_compute. reflexivity. Qed.
(** The last press applies at 27400. *)
Example ex_no_trailing :
  match ex_dots None true with
  | Ok l => sort_pairs l = [(0, 400); (0, 3400); (0, 6400); (0, 9400);
                            (10000, 10400); (10000, 13400); (10000, 16400); (10000, 19400); (10000, 22400);
                            (27000, 27400)]
  | Err _ => False
  end.
Proof. vm_compute. reflexivity. Qed.
(** An offset meeting the hypotheses of [C17_aligned]. *)
Example ex_offset : Qeq_bool (fmul 1000 (dec 500 1000)) (inject_Z 500) = true.
Proof. vm_compute. reflexivity. Qed.
