(** * C75: a press that does nothing changes nothing else *)

From Coq Require Import ZArith QArith List String Bool Permutation.
From Verif Require Import Base Float Strings Types Lookup JobResource Stats Library StatusEffect Events Rotation Fixtures GameLib SpecGame SpecPlay SpecTimeline SpecRun SpecLater
  SpecReplay SpecShuffle SpecIdle DetermineFacts IdleFacts IdleGame ReplayCase ShuffleCase IdleCase IdleShip.
Import ListNotations.
Open Scope string_scope.
Open Scope Z_scope.

(** ** The calls determine the presses *)

(** The specification of what a rotation plays, which C12-C14 and others use, leaves no
    choice for sequenced presses, nor for timed presses at different times. *)
Theorem C12_determined b slog tlog slog' tlog' :
  rotation_played b slog tlog -> rotation_played b slog' tlog' -> slog = slog' /\ (distinct_times b -> tlog = tlog').
Proof. exact (played_determined b slog tlog slog' tlog'). Qed.
Print Assumptions C12_determined.

(** ** C75 *)

Theorem C75_timed b0 l1 t c l2 s b r :
  built b0 -> b_autos b0 = false -> b_ignore_trailing b0 = false ->
  follow b0 (l1 ++ PressAt t c :: l2)%list = Ok b -> distinct_times b ->
  get_skill (b_library b0) (c_name c) (match c_job c with Some j => j | None => st_job (b_stats b0) end) = Ok s ->
  idle s -> uncounted b (sk_name s) -> get_skill_timing b = Ok r ->
  exists b' r', follow b0 (l1 ++ l2)%list = Ok b' /\ get_skill_timing b' = Ok r' /\ one_more s r' r.
Proof. exact (timed_left_out b0 l1 t c l2 s b r). Qed.
Print Assumptions C75_timed.

Example C75_timed_case :
  built it_b0 /\ b_autos it_b0 = false /\ b_ignore_trailing it_b0 = false
  /\ follow it_b0 (it_l1 ++ PressAt 3 pause :: it_l2)%list = Ok it_b /\ distinct_times it_b
  /\ get_skill (b_library it_b0) (c_name pause) (match c_job pause with Some j => j | None => st_job (b_stats it_b0) end) = Ok id_pause
  /\ idle id_pause /\ uncounted it_b (sk_name id_pause) /\ get_skill_timing it_b = Ok it_r
  /\ map (fun e => (ev_primary e, sk_name (ev_skill e))) (timeline it_r)
     = [(-400, "Burn"); (-400, "Burn (tick)"); (-400, "Burn (tick)"); (-400, "Burn (tick)"); (-400, "Burn (tick)"); (-400, "Burn (tick)");
        (600, "Boost"); (1250, "Hit"); (2700, "Quick"); (3600, "Pause"); (3690, "Hit"); (6130, "Hit")].
Proof.
  destruct it_ok as (S & F & R). destruct it_settings as (A & T & L & St).
  split; [exact (built_init _ _ _ _ _ _ _ _ _ S)|]. split; [exact A|]. split; [exact T|]. split; [exact F|]. split; [exact it_distinct|].
  split; [exact (id_found _ L St)|]. split; [exact (proj1 id_idle)|]. split; [exact it_uncounted|]. split; [exact R | exact it_shown].
Qed.

(** In sequence it must not hold the next press up: that one is a GCD, later than the
    end of the lock. *)
Theorem C75_sequence b0 l1 c l2 s b1 b r :
  built b0 -> b_autos b0 = false -> b_ignore_trailing b0 = false ->
  follow b0 l1 = Ok b1 -> follow b0 (l1 ++ NextPress c 1 :: l2)%list = Ok b ->
  get_skill (b_library b0) (c_name c) (match c_job c with Some j => j | None => st_job (b_stats b0) end) = Ok s ->
  idle s -> sk_is_GCD s = false -> uncounted b (sk_name s) -> nonneg_locks b ->
  fits b (List.length (b_sequence b1)) -> get_skill_timing b = Ok r ->
  exists b' r', follow b0 (l1 ++ l2)%list = Ok b' /\ get_skill_timing b' = Ok r' /\ one_more s r' r.
Proof. exact (next_left_out b0 l1 c l2 s b1 b r). Qed.
Print Assumptions C75_sequence.

Example C75_sequence_case :
  built is_b0 /\ b_autos is_b0 = false /\ b_ignore_trailing is_b0 = false
  /\ follow is_b0 is_l1 = Ok is_b1 /\ follow is_b0 (is_l1 ++ NextPress pause 1 :: is_l2)%list = Ok is_b
  /\ get_skill (b_library is_b0) (c_name pause) (match c_job pause with Some j => j | None => st_job (b_stats is_b0) end) = Ok id_pause
  /\ idle id_pause /\ sk_is_GCD id_pause = false /\ uncounted is_b (sk_name id_pause) /\ nonneg_locks is_b
  /\ fits is_b (List.length (b_sequence is_b1)) /\ get_skill_timing is_b = Ok is_r
  /\ map (fun p => (pr_time p, pr_name p)) (get_button_press_timing is_r)
     = [(0, "Burn"); (650, "Quick"); (1300, "Pause"); (2440, "Hit"); (4880, "Hit"); (5530, "Quick")].
Proof.
  destruct is_ok as (S & F1 & F & R). destruct is_settings as (A & T & L & St).
  split; [exact (built_init _ _ _ _ _ _ _ _ _ S)|]. split; [exact A|]. split; [exact T|]. split; [exact F1|]. split; [exact F|].
  split; [exact (id_found _ L St)|]. split; [exact (proj1 id_idle)|]. split; [reflexivity|]. split; [exact is_uncounted|]. split; [exact is_locks|].
  split; [exact is_fits|]. split; [exact R | exact is_shown].
Qed.

(** The waits of every shipped library: nothing counts them. *)
Theorem C75_shipped_timed v lv b0 l1 t c l2 k b r :
  create_skill_library v lv = Ok (b_library b0) -> built b0 -> b_autos b0 = false -> b_ignore_trailing b0 = false ->
  c_name c = wait_name (10 * k) -> 0 <= k < 1000 ->
  follow b0 (l1 ++ PressAt t c :: l2)%list = Ok b -> distinct_times b -> get_skill_timing b = Ok r ->
  exists s b' r', sk_name s = wait_name (10 * k)
    /\ follow b0 (l1 ++ l2)%list = Ok b' /\ get_skill_timing b' = Ok r' /\ one_more s r' r.
Proof. exact (shipped_timed_wait v lv b0 l1 t c l2 k b r). Qed.
Print Assumptions C75_shipped_timed.

Example C75_shipped_case : wait_name (10 * 70) = "Wait 0.70s" /\ exists b0 b r,
  create_skill_library "7.05" 100 = Ok (b_library b0) /\ built b0 /\ b_autos b0 = false /\ b_ignore_trailing b0 = false
  /\ follow b0 (sp_l1 ++ PressAt (25 # 10) (tap "Wait 0.70s" None) :: sp_l2)%list = Ok b /\ distinct_times b /\ get_skill_timing b = Ok r
  /\ map (fun e => (ev_primary e, sk_name (ev_skill e))) (timeline r)
     = [(0, "Heavy Swing"); (2000, "Inner Release"); (2000, "Surging Tempest"); (2500, "Maim"); (2500, "Wait 0.70s"); (3000, "Fell Cleave")].
Proof. split; [reflexivity | exact sp_case]. Qed.

Theorem C75_shipped_sequence v lv b0 l1 c l2 k b1 b r :
  create_skill_library v lv = Ok (b_library b0) -> built b0 -> b_autos b0 = false -> b_ignore_trailing b0 = false ->
  c_name c = wait_name (10 * k) -> 0 <= k < 1000 -> follow b0 l1 = Ok b1 ->
  follow b0 (l1 ++ NextPress c 1 :: l2)%list = Ok b -> fits b (List.length (b_sequence b1)) -> get_skill_timing b = Ok r ->
  exists s b' r', sk_name s = wait_name (10 * k)
    /\ follow b0 (l1 ++ l2)%list = Ok b' /\ get_skill_timing b' = Ok r' /\ one_more s r' r.
Proof. exact (shipped_next_wait v lv b0 l1 c l2 k b1 b r). Qed.
Print Assumptions C75_shipped_sequence.

(** *** Each hypothesis is needed *)

(** An effect with a single use and no allow list is used up by the press. *)
Theorem C75_counted_refuted :
  ~ (forall b0 l1 t c l2 s b r,
       built b0 -> b_autos b0 = false -> b_ignore_trailing b0 = false -> follow b0 (l1 ++ PressAt t c :: l2)%list = Ok b -> distinct_times b ->
       get_skill (b_library b0) (c_name c) (match c_job c with Some j => j | None => st_job (b_stats b0) end) = Ok s -> idle s ->
       get_skill_timing b = Ok r ->
       exists b' r', follow b0 (l1 ++ l2)%list = Ok b' /\ get_skill_timing b' = Ok r' /\ one_more s r' r).
Proof. exact counted_refuted. Qed.
Print Assumptions C75_counted_refuted.

(** With trailing ticks ignored, the press at the end keeps ticks. *)
Theorem C75_trailing_refuted :
  ~ (forall b0 l1 t c l2 s b r,
       built b0 -> b_autos b0 = false -> follow b0 (l1 ++ PressAt t c :: l2)%list = Ok b -> distinct_times b ->
       get_skill (b_library b0) (c_name c) (match c_job c with Some j => j | None => st_job (b_stats b0) end) = Ok s -> idle s -> uncounted b (sk_name s) ->
       get_skill_timing b = Ok r ->
       exists b' r', follow b0 (l1 ++ l2)%list = Ok b' /\ get_skill_timing b' = Ok r' /\ one_more s r' r).
Proof. exact trailing_refuted. Qed.
Print Assumptions C75_trailing_refuted.

(** With autos, the press ends a channel. *)
Theorem C75_autos_refuted :
  ~ (forall b0 l1 t c l2 s b r,
       built b0 -> b_ignore_trailing b0 = false -> follow b0 (l1 ++ PressAt t c :: l2)%list = Ok b -> distinct_times b ->
       get_skill (b_library b0) (c_name c) (match c_job c with Some j => j | None => st_job (b_stats b0) end) = Ok s -> idle s -> uncounted b (sk_name s) ->
       get_skill_timing b = Ok r ->
       exists b' r', follow b0 (l1 ++ l2)%list = Ok b' /\ get_skill_timing b' = Ok r' /\ one_more s r' r).
Proof. exact autos_idle_refuted. Qed.
Print Assumptions C75_autos_refuted.

(** In sequence, a press longer than the recast moves what follows. *)
Theorem C75_unfit_refuted :
  ~ (forall b0 l1 c l2 s b r,
       built b0 -> b_autos b0 = false -> b_ignore_trailing b0 = false -> follow b0 (l1 ++ NextPress c 1 :: l2)%list = Ok b ->
       get_skill (b_library b0) (c_name c) (match c_job c with Some j => j | None => st_job (b_stats b0) end) = Ok s -> idle s ->
       sk_is_GCD s = false -> uncounted b (sk_name s) -> nonneg_locks b -> get_skill_timing b = Ok r ->
       exists b' r', follow b0 (l1 ++ l2)%list = Ok b' /\ get_skill_timing b' = Ok r' /\ one_more s r' r).
Proof. exact unfit_refuted. Qed.
Print Assumptions C75_unfit_refuted.
