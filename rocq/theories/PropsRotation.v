(** * C03, C12-C15, C42, C43: presses and the events they cause *)

From Coq Require Import ZArith QArith List String Bool Permutation Sorted.
From Verif Require Import Base Float Types Lookup StatusEffect Stats Library Events Rotation SpecQueue SpecPlay SpecTimeline SpecDots
  SpecCond SpecRun RunProps ApiFacts RunStories RunCounter Fixtures.
Import ListNotations.
Open Scope string_scope.
Open Scope Z_scope.

(** C03 *)
Theorem C03_timeline_ids b b' :
  reachable b -> get_skill_timing b = Ok b' ->
  let l := q_heap (b_queue b') in
  NoDup (map ev_id l)
  /\ (forall e, In e l -> 0 <= ev_id e < Z.of_nat (List.length l))
  /\ (forall e e', In e l -> In e' l -> ev_id e < ev_id e' -> key_le e e').
Proof. exact (timeline_ids_order b b'). Qed.
Print Assumptions C03_timeline_ids.

(** C12 *)
Theorem C12_sequence_presses b b' :
  reachable b -> get_skill_timing b = Ok b' -> b_timed b = [] -> nonneg_locks b ->
  exists slog d,
    rotation_played b slog []
    /\ get_button_press_timing b' = map (press_earlier d) (map (press_record (st_job (b_stats b))) slog)
    /\ StronglySorted (fun p q => pl_time p <= pl_time q) slog
    /\ StronglySorted (fun x y => pr_time x <= pr_time y) (get_button_press_timing b')
    /\ forall p q, consecutive_gcds slog p q ->
         exists spec r, pl_timing p = Some spec /\ is_recast_time (b_stats b) spec (pl_buffs p) (pl_debuffs p) r
           /\ pl_time p + r <= pl_time q.
Proof. exact (sequence_presses b b'). Qed.
Print Assumptions C12_sequence_presses.

(** Also when timed presses are mixed in.  Every run plays the rotation: the presses it
    reports, moved by one amount. *)
Theorem C12_gcd_gap b b' :
  reachable b -> get_skill_timing b = Ok b' ->
  exists slog tlog d, rotation_played b slog tlog /\ shows_presses b b' (slog ++ tlog) d
    /\ (b_fight_start b <> None -> d = 0)
    /\ forall p q, consecutive_gcds slog p q ->
         exists spec r, pl_timing p = Some spec /\ is_recast_time (b_stats b) spec (pl_buffs p) (pl_debuffs p) r
           /\ pl_time p + r <= pl_time q.
Proof. exact (run_gaps b b'). Qed.
Print Assumptions C12_gcd_gap.

(** C13.  [slog] is what the run plays and reports. *)
Theorem C13_run b b' :
  reachable b -> get_skill_timing b = Ok b' ->
  exists slog tlog d, rotation_played b slog tlog /\ shows_presses b b' (slog ++ tlog) d
    /\ forall p q spec, consecutive_gcds slog p q -> pl_timing p = Some spec -> gcd_base_recast spec = 2500 ->
         pl_time p + 1500 <= pl_time q.
Proof. exact (run_floor b b'). Qed.
Print Assumptions C13_run.

(** C14.  The timeline has the events of the presses played, at these times. *)
Theorem C14_times b b' :
  reachable b -> get_skill_timing b = Ok b' ->
  exists slog tlog extra d, rotation_played b slog tlog
    /\ shows_timeline b b' (flat_map press_entries (slog ++ tlog) ++ extra) d
    /\ (b_fight_start b <> None -> d = 0)
    /\ forall p, In p (slog ++ tlog) ->
         0 <= pl_cast p
         /\ pl_snapshot p = pl_time p + Z.max 0 (pl_cast p - 500)
         /\ (forall spec, pl_timing p = Some spec -> sm_ignore_application_delay (pl_modifier p) = false ->
              pl_application p = pl_time p + pl_cast p
                + (if 0 <? pl_cast p then Z.max 0 (application_delay spec - 500) else application_delay spec))
         /\ (sm_ignore_application_delay (pl_modifier p) = true -> pl_application p = pl_time p + pl_cast p)
         /\ (sm_ignore_cast_times (pl_modifier p) = true -> pl_cast p = 0 /\ pl_snapshot p = pl_time p)
         /\ (nonneg_delays b -> pl_time p <= pl_snapshot p <= pl_application p).
Proof. exact (run_times b b'). Qed.
Print Assumptions C14_times.

(** C15 *)
Theorem C15_add_asks b t name m job targets b' :
  add b t name m job targets = Ok b' ->
  exists x, b_timed b' = (b_timed b ++ [x])%list /\ b_sequence b' = b_sequence b
    /\ truncates (fmul 1000 t) (tm_time x).
Proof. exact (add_asks b t name m job targets b'). Qed.
Print Assumptions C15_add_asks.

Theorem C15_presses_reported b b' :
  reachable b -> get_skill_timing b = Ok b' ->
  exists slog tlog d, rotation_played b slog tlog
    /\ (b_fight_start b <> None -> d = 0)
    /\ StronglySorted (fun x y => pr_time x <= pr_time y) (get_button_press_timing b')
    /\ Permutation (get_button_press_timing b')
         (map (press_earlier d) (map (press_record (st_job (b_stats b))) slog ++ map (asked_press (st_job (b_stats b))) (b_timed b)))
    /\ StronglySorted (fun p q => pl_time p <= pl_time q) tlog.
Proof. exact (all_presses_once b b'). Qed.
Print Assumptions C15_presses_reported.

(** [1000 * t] is computed in double precision, so a whole number of milliseconds
    can be lost: 2.01 s is 2009 ms. *)
Theorem C15_whole_milliseconds_refuted :
  ~ (forall b k name m job targets b' x,
       add b (dec k 1000) name m job targets = Ok b' -> b_timed b' = (b_timed b ++ [x])%list -> tm_time x = k).
Proof. exact add_ms_refuted. Qed.
Print Assumptions C15_whole_milliseconds_refuted.

(** C42 *)
Theorem C42_add b t name m job targets b' :
  add b t name m job targets = Ok b' ->
  exists x, b_timed b' = (b_timed b ++ [x])%list /\ b_sequence b' = b_sequence b /\ same_settings b b'
    /\ truncates (fmul 1000 t) (tm_time x)
    /\ tm_job x = match job with Some j => j | None => st_job (b_stats b) end
    /\ get_skill (b_library b) name (tm_job x) = Ok (tm_skill x)
    /\ (forall m', m = Some m' -> tm_modifier x = m')
    /\ (m = None -> default_for b (tm_skill x) (tm_job x) (tm_modifier x))
    /\ targets_named (match targets with Some s => s | None => b_default_target b end) (tm_targets x).
Proof. exact (add_spec b t name m job targets b'). Qed.
Print Assumptions C42_add.

Theorem C42_add_next b name m job n targets b' :
  add_next b name m job n targets = Ok b' ->
  exists x, b_sequence b' = (b_sequence b ++ repeat x (Z.to_nat n))%list /\ b_timed b' = b_timed b /\ same_settings b b'
    /\ sq_job x = match job with Some j => j | None => st_job (b_stats b) end
    /\ get_skill (b_library b) name (sq_job x) = Ok (sq_skill x)
    /\ (forall m', m = Some m' -> sq_modifier x = m')
    /\ (m = None -> default_for b (sq_skill x) (sq_job x) (sq_modifier x))
    /\ targets_named (match targets with Some s => s | None => b_default_target b end) (sq_targets x).
Proof. exact (add_next_spec b name m job n targets b'). Qed.
Print Assumptions C42_add_next.

(** A target string names one list of targets, and never none. *)
Theorem C42_targets s :
  exists tg, targets_named s tg /\ tg <> [] /\ forall tg', targets_named s tg' -> tg' = tg.
Proof. exact (targets_unique s). Qed.
Print Assumptions C42_targets.

(** An error leaves the caller with the builder it had: both functions return no
    new rotation, and the error is a KeyError exactly when the skill is unknown. *)
Theorem C42_unknown_skill b t name m job targets n :
  let j := match job with Some j => j | None => st_job (b_stats b) end in
  ((exists s, get_skill (b_library b) name j = Ok s) /\ (exists b', add b t name m job targets = Ok b')
     /\ (exists b', add_next b name m job n targets = Ok b'))
  \/ (get_skill (b_library b) name j = Err KeyError /\ add b t name m job targets = Err KeyError
     /\ add_next b name m job n targets = Err KeyError).
Proof. exact (unknown_skill b t name m job targets n). Qed.
Print Assumptions C42_unknown_skill.

(** The targets of every press are known to the builder. *)
Theorem C42_targets_known b :
  built b ->
  (forall x t, In x (b_sequence b) -> In t (sq_targets x) -> In t (b_targets b))
  /\ (forall x t, In x (b_timed b) -> In t (tm_targets x) -> In t (b_targets b)).
Proof. exact (built_targets b). Qed.
Print Assumptions C42_targets_known.

(** C43 *)
Theorem C43_repetition b name m job targets n :
  (0 < n)%nat ->
  foldM (fun b (_ : unit) => add_next b name m job 1 targets) (repeat tt n) b
  = add_next b name m job (Z.of_nat n) targets.
Proof. exact (add_next_repeat name m job targets n b). Qed.
Print Assumptions C43_repetition.

(** ** Examples *)

(** Boost; two hits with an off-GCD between them; a cast; a burn. *)
Definition ex_sequence : res builder :=
  and_next (and_next (and_next (and_next (and_next (fx_builder false false (Some 0) (RWTuple []))
    "Boost" 1 None) "Hit" 1 None) "Quick" 1 (Some " A,B ")) "Cast" 2 None) "Burn" 1 None.
Definition ex_seq_builder : builder := fst (ran ex_sequence).
Definition ex_seq_after : builder := snd (ran ex_sequence).

Example ex_sequence_runs :
  ex_sequence = Ok ex_seq_builder /\ get_skill_timing ex_seq_builder = Ok ex_seq_after
  /\ map (fun p => (pr_time p, pr_name p)) (get_button_press_timing ex_seq_after)
     = [(0, "Boost"); (650, "Hit"); (1300, "Quick"); (3090, "Cast"); (5530, "Cast"); (7970, "Burn")].
Proof. split; [|split]; vm_compute; reflexivity. Qed.

Example ex_sequence_built : built ex_seq_builder.
Proof.
  destruct ex_sequence_runs as (E & _). revert E. generalize ex_seq_builder.
  change (all_built ex_sequence). unfold ex_sequence. do 5 apply and_next_built. apply init_built.
Qed.
Example ex_sequence_locks : nonneg_locks ex_seq_builder /\ nonneg_delays ex_seq_builder.
Proof.
  assert (E : skills_of ex_seq_builder = [fx_buff; fx_hit; fx_ogcd; fx_cast; fx_cast; fx_burn]) by (vm_compute; reflexivity).
  split; intros s m spec H G; rewrite E in H;
    repeat (destruct H as [<-|H]; [vm_compute in G; injection G as <-; vm_compute; discriminate|]); destruct H.
Qed.
(** So [C12_sequence_presses] applies. *)
Example ex_sequence_only : b_timed ex_seq_builder = [].
Proof. vm_compute. reflexivity. Qed.

(** In its log, Hit and the first Cast are consecutive GCDs with Quick between them. *)
Example ex_played : rotation_played ex_seq_builder (log_of ex_seq_builder) [].
Proof. apply log_of_played; [eexists; vm_compute; reflexivity | vm_compute; reflexivity]. Qed.
Example ex_consecutive :
  exists p q, consecutive_gcds (log_of ex_seq_builder) p q /\ pl_time p = 650 /\ pl_time q = 3090
    /\ pl_cast q = 1460 /\ pl_snapshot q = 4050 /\ pl_application q = 4650.
Proof.
  eexists _, _. split.
  - exists (firstn 1 (log_of ex_seq_builder)). eexists [_]. exists (skipn 4 (log_of ex_seq_builder)).
    split; [vm_compute; reflexivity|]. split; [vm_compute; reflexivity|]. split; [vm_compute; reflexivity|].
    intros x [<-|[]]. vm_compute. reflexivity.
  - repeat split; vm_compute; reflexivity.
Qed.

(** Timed presses in any order, with a modifier, another job and several targets. *)
Definition ex_timed : res builder :=
  let* b := fx_builder false false (Some 0) (RWTuple []) in
  let* b := add b (q 5) "Hit" None None None in
  let* b := add b (dec 1234 1000) "Cast" (Some (mkModifier F_DEFAULT F_DEFAULT ["Foo"] false true false None)) None (Some "A, B") in
  add_next b "Quick" None None 1 None.
Example ex_timed_presses :
  map (fun p => (pr_time p, pr_name p, pr_cond p)) (get_button_press_timing (snd (ran ex_timed)))
  = [(0, "Quick", ""); (1234, "Cast", "Foo"); (5000, "Hit", "")]
  /\ map (fun e => (ev_primary e, ev_secondary e, ev_targets e)) (sort_by ev_primary (q_heap (b_queue (snd (ran ex_timed)))))
  = [(0, None, [DEFAULT_TARGET]); (1234, Some 1834, ["A"; "B"]); (5000, Some 5500, [DEFAULT_TARGET])].
Proof. vm_compute. split; reflexivity. Qed.

Example ex_unknown :
  add_next ex_seq_builder "Nope" None None 1 None = Err KeyError /\ add_next ex_seq_builder "Hit" None (Some "other") 1 None = Err KeyError.
Proof. vm_compute. split; reflexivity. Qed.
Example ex_repeat :
  match add_next ex_seq_builder "Hit" None None 3 (Some "A") with
  | Ok b => List.length (b_sequence b) = 9%nat
  | Err _ => False
  end.
Proof. vm_compute. reflexivity. Qed.
